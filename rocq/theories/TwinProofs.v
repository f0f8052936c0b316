(** Two states of the interface that nobody can tell apart: they answer every
    message and frame with the same events. *)
From Verif Require Import Base BaseLemmas SynthModel SynthSpec SramModel PsgModel MidiModel DevModel DevSpec DevProofs.
From Verif Require Import AppModel AppSpec AppProofs PsgAlikeProofs.
From Verif Require PsgSpec MidiSpec MidiOkProofs MidiProofs MidiCallProofs.

Section Twins.
Context (r : rom) (Hr : rom_ok r).

(** What is read of a channel of midi_fm.c before it is written. *)
Definition heard (x : mfch) : Z * Z * bool := (f_vol x, f_vel x, f_perc x).

Definition twins (a b : devst) : Prop :=
  dev_inv a /\ dev_inv b /\ v_synth a = v_synth b /\ v_user a = v_user b /\
  (forall n x y, zget (v_fm a) n = Some x -> zget (v_fm b) n = Some y -> heard x = heard y) /\
  exists ue, alike (rom_envs r) ue (v_psg a) (v_psg b).

Lemma twins_fm a b n : twins a b -> 0 <= n < 6 -> heard (fm_of a n) = heard (fm_of b n).
Proof.
  intros (Ia & Ib & _ & _ & H & _) Hn. apply (H n); apply fm_get; try exact Hn; [apply Ia|apply Ib].
Qed.
Lemma twins_instrument a b p : twins a b -> instrument r a p = instrument r b p.
Proof. intros (_ & _ & _ & H & _). unfold instrument. rewrite H. reflexivity. Qed.
Lemma twins_channel a b n : twins a b -> channel_preset a n = channel_preset b n.
Proof. intros (_ & _ & H & _). unfold channel_preset. rewrite H. reflexivity. Qed.
Lemma twins_good a b : twins a b -> psg_good r (v_psg a) /\ psg_good r (v_psg b).
Proof. intros (_ & _ & _ & _ & _ & ue & H1 & H2 & _). split; exists ue; assumption. Qed.

Lemma twins_synth_calls a b c : twins a b -> MidiSpec.dcall_ok c -> synth_calls r a c = synth_calls r b c.
Proof.
  intros T Hc. destruct c; try destruct v; cbn [synth_calls]; try reflexivity.
  - destruct Hc as [Hn _]. assert (E := twins_fm a b num T Hn). injection E as E1 E2 E3. rewrite E1, E3. reflexivity.
  - destruct Hc as [Hn _]. assert (E := twins_fm a b num T Hn). injection E as E1 E2 E3. rewrite E2. reflexivity.
  - rewrite (twins_instrument a b) by exact T. reflexivity.
Qed.
Lemma twins_other a b c : twins a b -> other_by r a c = other_by r b c.
Proof.
  intros T. destruct c; try destruct v; cbn [other_by]; try reflexivity.
  - rewrite (twins_instrument a b) by exact T. reflexivity.
  - rewrite (twins_channel a b) by exact T. reflexivity.
Qed.

(** A call produces events of one kind only. *)
Lemma one_kind s c :
  (synth_calls r s c = [] /\ psg_calls c = []) \/ (synth_calls r s c = [] /\ other_by r s c = []) \/
  (psg_calls c = [] /\ other_by r s c = []).
Proof. destruct c; try destruct v; cbn [synth_calls psg_calls other_by]; auto. Qed.
Lemma kinds o : filter fm_event o = [] -> filter psg_event o = [] -> filter other_event o = o.
Proof.
  intros H1 H2. apply filter_all. apply Forall_forall. intros e He. unfold other_event.
  destruct (fm_event e) eqn:E1; [|destruct (psg_event e) eqn:E2; [|reflexivity]]; exfalso.
  - assert (X : In e (filter fm_event o)) by (apply filter_In; auto). rewrite H1 in X. destruct X.
  - assert (X : In e (filter psg_event o)) by (apply filter_In; auto). rewrite H2 in X. destruct X.
Qed.
Lemma kinds_psg o : filter fm_event o = [] -> filter other_event o = [] -> filter psg_event o = o.
Proof.
  intros H1 H2. apply filter_all. apply Forall_forall. intros e He.
  destruct (psg_event e) eqn:E; [reflexivity|exfalso]. destruct (fm_event e) eqn:E1.
  - assert (X : In e (filter fm_event o)) by (apply filter_In; auto). rewrite H1 in X. destruct X.
  - assert (X : In e (filter other_event o)) by (apply filter_In; split; [exact He|unfold other_event; rewrite E, E1; reflexivity]).
    rewrite H2 in X. destruct X.
Qed.
Lemma kinds_fm o : filter psg_event o = [] -> filter other_event o = [] -> filter fm_event o = o.
Proof.
  intros H1 H2. apply filter_all. apply Forall_forall. intros e He.
  destruct (fm_event e) eqn:E; [reflexivity|exfalso]. destruct (psg_event e) eqn:E1.
  - assert (X : In e (filter psg_event o)) by (apply filter_In; auto). rewrite H1 in X. destruct X.
  - assert (X : In e (filter other_event o)) by (apply filter_In; split; [exact He|unfold other_event; rewrite E, E1; reflexivity]).
    rewrite H2 in X. destruct X.
Qed.
Lemma no_synth_calls s s' o : synth_run [] s = Done tt s' o -> o = [].
Proof. intros [= _ <-]. reflexivity. Qed.
Lemma no_psg_calls s s' o : psg_run (rom_pal r) (rom_envs r) [] s = Done tt s' o -> o = [].
Proof. intros [= _ <-]. reflexivity. Qed.

Lemma done_inj {S A} (a a' : A) (s s' : S) o o' : Done a s o = Done a' s' o' -> a = a' /\ s = s' /\ o = o'.
Proof. intros [=]; auto. Qed.

Lemma perform_twins det det' c a b : twins a b -> MidiSpec.dcall_ok c -> c <> DFmInit -> ~ beyond_samples c ->
  exists a' b' o, perform r det c a = Done tt a' o /\ perform r det' c b = Done tt b' o /\ twins a' b'.
Proof.
  intros T Hc Hn Hb. assert (T' := T). destruct T' as (Ia & Ib & Es & Eu & Hf & ue & Ha).
  destruct (twins_good _ _ T) as [Ga Gb]. assert (He : PsgSpec.envs_ok (rom_envs r)) by apply Hr.
  destruct (perform_does r Hr det c a Ia Ga Hc ltac:(contradiction) Hb) as (a' & o & (Ea & Sa & Pa) & Fa & Ia' & _).
  destruct (perform_does r Hr det' c b Ib Gb Hc ltac:(contradiction) Hb) as (b' & o' & (Eb & Sb & Pb) & Fb & Ib' & _).
  assert (Oa := perform_others r Hr det c a a' o Ia Hc Ea ltac:(contradiction)).
  assert (Ob := perform_others r Hr det' c b b' o' Ib Hc Eb ltac:(contradiction)).
  destruct (run_alike (rom_pal r) (rom_envs r) He (psg_calls c) (psg_calls_ok c Hc) ue _ _ Ha) as (ue' & x & y & op & Rx & Ry & A').
  rewrite Pa in Rx. rewrite Pb in Ry. apply done_inj in Rx as (_ & Rx & Rxo). apply done_inj in Ry as (_ & Ry & Ryo).
  rewrite <- (twins_synth_calls a b c T Hc), <- Es, Sa in Sb. apply done_inj in Sb as (_ & Vs & Vo).
  rewrite <- (twins_other a b c T), <- Oa in Ob.
  assert (Eo : o = o').
  { destruct (one_kind a c) as [[K1 K2]|[[K1 K2]|[K1 K2]]].
    - rewrite K1 in Sa. apply no_synth_calls in Sa. rewrite K2 in Pa. apply no_psg_calls in Pa.
      rewrite <- (kinds o Sa Pa). rewrite <- (kinds o'); [symmetry; exact Ob|congruence|congruence].
    - rewrite K1 in Sa. apply no_synth_calls in Sa. rewrite K2 in Oa.
      rewrite <- (kinds_psg o Sa Oa). rewrite <- (kinds_psg o'); congruence.
    - rewrite K1 in Pa. apply no_psg_calls in Pa. rewrite K2 in Oa.
      rewrite <- (kinds_fm o Pa Oa). rewrite <- (kinds_fm o'); congruence. }
  subst o'. exists a', b', o. split; [exact Ea|]. split; [exact Eb|]. split; [exact Ia'|]. split; [exact Ib'|].
  split; [exact Vs|].
  destruct Fa as (La1 & La2 & _ & _ & _ & Ma1 & Ma2). destruct Fb as (Lb1 & Lb2 & _ & _ & _ & Mb1 & Mb2).
  split; [|split].
  - apply zget_ext. intros i _. destruct (zget (v_user a) i) as [u|] eqn:Hu.
    2:{ apply zget_None in Hu. transitivity (@None (option preset)); [apply zget_None; rewrite La2; exact Hu|].
        symmetry. apply zget_None. rewrite Lb2, <- Eu. exact Hu. }
    rewrite (Ma2 _ _ Hu). rewrite Eu in Hu. rewrite (Mb2 _ _ Hu). f_equal.
    destruct c; cbn [user_after]; try reflexivity. rewrite (twins_channel a b) by exact T. reflexivity.
  - intros n x0 y0 Hx Hy. assert (Hn' := zget_Some _ _ _ Hx).
    destruct (zget_in_range (v_fm a) n) as [fa Hfa]; [lia|].
    assert (Hlen : length (v_fm b) = length (v_fm a)) by (transitivity 6%nat; [apply Ib|symmetry; apply Ia]).
    destruct (zget_in_range (v_fm b) n) as [fb Hfb]; [lia|].
    rewrite (Ma1 _ _ Hfa) in Hx. rewrite (Mb1 _ _ Hfb) in Hy. injection Hx as <-. injection Hy as <-.
    assert (Q := Hf n fa fb Hfa Hfb). unfold heard in Q |- *. injection Q as Q1 Q2 Q3.
    destruct c; try destruct v; cbn [fm_after]; try (rewrite Q1, Q2, Q3; reflexivity);
      try (destruct (_ =? _); cbn; rewrite Q1, ?Q2, ?Q3; reflexivity); try reflexivity.
    + destruct (_ && _); cbn; rewrite Q1, ?Q2, Q3; reflexivity.
    + destruct (_ =? _); cbn; rewrite ?Q1, ?Q2, ?Q3; reflexivity.
  - exists ue'. rewrite Rx, Ry. exact A'.
Qed.

Lemma perform_all_twins det det' cs : forall a b, twins a b -> Forall MidiSpec.dcall_ok cs -> ~ In DFmInit cs ->
  (exists f, perform_all r det cs a = Fault f /\ perform_all r det' cs b = Fault f) \/
  (exists a' b' o, perform_all r det cs a = Done tt a' o /\ perform_all r det' cs b = Done tt b' o /\ twins a' b').
Proof.
  induction cs as [|c t IH]; intros a b T Hc Hn.
  - right. exists a, b, []. auto.
  - unfold perform_all. cbn [runM]. destruct (beyond_dec c) as [B|B].
    + left. exists F_pcm. unfold bind. rewrite !(perform_beyond r Hr _ c _ B). auto.
    + destruct (perform_twins det det' c a b T (Forall_inv Hc)) as (a1 & b1 & o1 & Ea & Eb & T1); [|exact B|].
      { intros ->. apply Hn. left. reflexivity. }
      destruct (IH a1 b1 T1 (Forall_inv_tail Hc)) as [(f & Fa & Fb)|(a2 & b2 & o2 & Fa & Fb & T2)].
      { intros X. apply Hn. right. exact X. }
      * left. exists f. split; eapply bind_fault; eassumption.
      * right. exists a2, b2, (o1 ++ o2). split; [|split; [|exact T2]]; eapply bind_done; eassumption.
Qed.

(** ** The whole interface *)
Definition app_twins (s s' : app) : Prop :=
  a_midi s = a_midi s' /\ MidiSpec.midi_ok (a_midi s) /\ twins (a_dev s) (a_dev s').
(** Both give the same events, or stop with the same fault. *)
Definition same_answers {S} (m : M S unit) (R : S -> S -> Prop) (s s' : S) : Prop :=
  (exists f, m s = Fault f /\ m s' = Fault f) \/ (exists t t' o, m s = Done tt t o /\ m s' = Done tt t' o /\ R t t').

Lemma msg_twins m s s' : MidiSpec.mop_ok m -> app_twins s s' -> same_answers (app_midi r (midi_step m)) app_twins s s'.
Proof.
  intros Hm (Em & Hok & T). unfold same_answers, app_midi. rewrite <- Em.
  assert (W := MidiOkProofs.midi_step_ok m (a_midi s) Hok Hm). assert (Mn := MidiCallProofs.calls_menu m (a_midi s)).
  destruct (midi_step m (a_midi s)) as [s1 cs|f] eqn:E; cbn [MidiProofs.wpw] in W; [|left; exists f; auto].
  destruct W as [Hcs Hs1]. specialize (Mn _ _ eq_refl).
  assert (Hn : ~ In DFmInit cs).
  { intros Hin. rewrite Forall_forall in Mn. destruct (menu_no_init _ _ (Mn _ Hin)) as [X _]. apply X. reflexivity. }
  destruct (perform_all_twins (detected s) (detected s') cs _ _ T Hcs Hn) as [(f & Fa & Fb)|(a2 & b2 & o2 & Fa & Fb & T2)]; rewrite Fa, Fb.
  - left. exists f. auto.
  - right. do 3 eexists. split; [reflexivity|]. split; [reflexivity|]. split; [reflexivity|]. split; [exact Hs1|exact T2].
Qed.
Lemma tick_twins s s' : app_twins s s' -> same_answers (app_dev (ps r PTick)) app_twins s s'.
Proof.
  intros (Em & Hok & T). right. assert (T' := T). destruct T' as (Ia & Ib & Es & Eu & Hf & ue & Ha).
  assert (He : PsgSpec.envs_ok (rom_envs r)) by apply Hr.
  destruct (run_alike (rom_pal r) (rom_envs r) He [PTick] ltac:(repeat constructor) ue _ _ Ha) as (ue' & x & y & o & Rx & Ry & A').
  assert (G : forall z z' oz, psg_run (rom_pal r) (rom_envs r) [PTick] z = Done tt z' oz -> psg_step (rom_pal r) (rom_envs r) PTick z = Done tt z' oz).
  { intros z z' oz. unfold psg_run. cbn [runM]. unfold bind, ret. destruct (psg_step _ _ PTick z) as [[] z1 o1|]; [|discriminate].
    rewrite app_nil_r. auto. }
  apply G in Rx. apply G in Ry. unfold app_dev, ps, lift. rewrite Rx, Ry. do 3 eexists. split; [reflexivity|]. split; [reflexivity|].
  split; [exact Em|]. split; [exact Hok|]. cbn [a_dev]. split; [exact Ia|]. split; [exact Ib|]. split; [exact Es|]. split; [exact Eu|].
  split; [exact Hf|]. exists ue'. exact A'.
Qed.
Lemma same_bind {S} (m k : M S unit) R s s' : same_answers m R s s' -> (forall t t', R t t' -> same_answers k R t t') ->
  same_answers (m ;; k) R s s'.
Proof.
  intros [(f & F1 & F2)|(t & t' & o & D1 & D2 & T)] Hk.
  - left. exists f. unfold bind. rewrite F1, F2. auto.
  - destruct (Hk t t' T) as [(f & F1 & F2)|(u & u' & o2 & U1 & U2 & T2)].
    + left. exists f. split; eapply bind_fault; eassumption.
    + right. exists u, u', (o ++ o2). split; [|split; [|exact T2]]; eapply bind_done; eassumption.
Qed.
Lemma step_twins op s s' : aop_ok op -> app_twins s s' -> same_answers (app_step r op) app_twins s s'.
Proof.
  intros Ho T. destruct op as [m|]; cbn [app_step].
  - apply msg_twins; assumption.
  - apply same_bind; [apply tick_twins, T|]. intros t t' Ht. apply msg_twins; [exact I|exact Ht].
Qed.
Theorem run_twins ops : forall s s', Forall aop_ok ops -> app_twins s s' -> same_answers (app_run r ops) app_twins s s'.
Proof.
  induction ops as [|op t IH]; intros s s' Ho T.
  - right. exists s, s', []. auto.
  - unfold app_run. cbn [runM]. apply same_bind; [apply step_twins; [exact (Forall_inv Ho)|exact T]|].
    intros x y Hxy. apply IH; [exact (Forall_inv_tail Ho)|exact Hxy].
Qed.
End Twins.
