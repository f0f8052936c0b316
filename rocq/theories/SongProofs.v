(** What midi_psg.c is asked to do over a history of the whole interface. *)
From Verif Require Import Base BaseLemmas PitchModel PitchSpec PsgModel PsgSpec SynthModel.
From Verif Require Import MidiModel MidiSpec MidiProofs MidiOkProofs MidiEqProofs MidiEffectProofs MidiCallProofs MidiDevProofs MidiInvProofs.
From Verif Require Import DevModel DevSpec DevProofs AppModel AppSpec AppProofs AppTraceProofs SoundSpec SongSpec.
From Verif Require PsgRunProofs LibraryProofs AppNoteProofs.

Definition tick (op : aop) : list pop := match op with AFrame => [PTick] | AMsg _ => [] end.
(** The calls of midi_psg.c for the messages and frames [ops]. *)
Inductive score (s : midi) : list aop -> midi -> list pop -> Prop :=
| sc_nil : score s [] s []
| sc_snoc ops s1 po op s2 cs : score s ops s1 po -> steps s1 (message op) s2 cs ->
    score s (ops ++ [op]) s2 (po ++ tick op ++ flat_map psg_calls cs).

Lemma snoc_inj {A} (a b : list A) x y : a ++ [x] = b ++ [y] -> a = b /\ x = y.
Proof. apply app_inj_tail. Qed.
Lemma score_snoc s ops op s2 po : score s (ops ++ [op]) s2 po ->
  exists s1 pa cs, score s ops s1 pa /\ steps s1 (message op) s2 cs /\ po = pa ++ tick op ++ flat_map psg_calls cs.
Proof.
  intros H. inversion H as [E E1 E2|a s1 pa x s2' cs S T E E1 E2].
  - destruct ops; discriminate.
  - apply snoc_inj in E as [-> ->]. exists s1, pa, cs. auto.
Qed.
Lemma score_app s a : forall b s2 po, score s (a ++ b) s2 po ->
  exists s1 pa pb, score s a s1 pa /\ score s1 b s2 pb /\ po = pa ++ pb.
Proof.
  induction b as [|op b IH] using rev_ind; intros s2 po H.
  - rewrite app_nil_r in H. exists s2, po, []. rewrite app_nil_r. split; [exact H|]. split; [constructor|reflexivity].
  - rewrite app_assoc in H. apply score_snoc in H as (s1 & pa & cs & S & T & ->). destruct (IH _ _ S) as (s0 & p0 & p1 & S0 & S1 & ->).
    exists s0, p0, (p1 ++ tick op ++ flat_map psg_calls cs). split; [exact S0|]. rewrite <- app_assoc. split; [|reflexivity]. econstructor; eassumption.
Qed.
Lemma ticks_app a : forall b, ticks (a ++ b) = ticks a + ticks b.
Proof. induction a as [|x t IH]; intros b; [reflexivity|]. cbn [Datatypes.app ticks]. rewrite IH. destruct x; lia. Qed.
Lemma ticks_calls cs : ticks (flat_map psg_calls cs) = 0.
Proof.
  induction cs as [|c t IH]; [reflexivity|]. cbn [flat_map]. rewrite ticks_app, IH.
  destruct c as [v ? ? ? ?|v ? ?|v ? ?|v ? ?|v ?|v ? ?|v ? ? ?|? ?|?|?|? ?|?|? ?|?|? ?|?| | | | | |? ? ? ?|? ?]; try reflexivity; destruct v; reflexivity.
Qed.
Lemma frames_app a : forall b, frames (a ++ b) = frames a + frames b.
Proof. induction a as [|x t IH]; intros b; [reflexivity|]. cbn [Datatypes.app frames]. rewrite IH. destruct x; lia. Qed.
Lemma score_ticks s ops s2 po : score s ops s2 po -> ticks po = frames ops.
Proof.
  induction 1 as [|ops s1 po op s2 cs S IH T]; [reflexivity|]. rewrite !ticks_app, ticks_calls, frames_app, IH.
  destruct op; cbn [tick ticks frames]; lia.
Qed.

(** One step. *)
Lemma step_score r (Hr : rom_ok r) op s s' o : app_inv r s -> aop_ok op -> app_step r op s = Done tt s' o ->
  exists cs, steps (a_midi s) (message op) (a_midi s') cs /\ Forall dcall_ok cs /\ app_inv r s' /\
    psg_run (rom_pal r) (rom_envs r) (tick op ++ flat_map psg_calls cs) (v_psg (a_dev s)) = Done tt (v_psg (a_dev s')) (filter psg_event o).
Proof.
  intros Hi Ho E.
  assert (Hmsg : forall m t t' o', app_inv r t -> mop_ok m -> app_midi r (midi_step m) t = Done tt t' o' ->
    exists cs, steps (a_midi t) m (a_midi t') cs /\ Forall dcall_ok cs /\ app_inv r t' /\
      psg_run (rom_pal r) (rom_envs r) (flat_map psg_calls cs) (v_psg (a_dev t)) = Done tt (v_psg (a_dev t')) (filter psg_event o')).
  { clear -Hr. intros m t t' o' (H1 & H2 & H3) Hm E. unfold app_midi in E. assert (W := midi_step_ok m (a_midi t) H1 Hm).
    assert (Mn := calls_menu m (a_midi t)). unfold steps.
    destruct (midi_step m (a_midi t)) as [s1 cs|f] eqn:Em; [|discriminate]. cbn [wpw] in W. destruct W as [Hc Hs1]. specialize (Mn _ _ eq_refl).
    assert (Hn : In DFmInit cs -> detected t = false).
    { intros Hin. rewrite Forall_forall in Mn. destruct (menu_no_init _ _ (Mn _ Hin)) as [X _]. contradiction X. reflexivity. }
    destruct (Exists_dec beyond_samples cs beyond_dec) as [B|B].
    - rewrite (perform_all_beyond r Hr _ cs _ H2 H3 Hc Hn B) in E. discriminate.
    - destruct (perform_all_does r Hr (detected t) cs _ H2 H3 Hc Hn B) as (d & o & so & (D & DS & DP) & I & G & S & R).
      rewrite D in E. injection E as <- <-. exists cs. split; [reflexivity|]. split; [exact Hc|]. split; [split; [exact Hs1|split; assumption]|exact DP]. }
  destruct op as [m|]; cbn [app_step aop_ok message tick] in *.
  - exact (Hmsg m s s' o Hi Ho E).
  - destruct (frame_tick r Hr s Hi) as (s1 & o1 & E1 & I1 & [CS CP] & EM). unfold bind in E. rewrite E1 in E.
    destruct (app_midi r (midi_step MTick) s1) as [[] s2 o2|] eqn:E2; [|discriminate]. injection E as <- <-.
    destruct (Hmsg MTick s1 s2 o2 I1 Logic.I E2) as (cs & S & C & I2 & P). rewrite EM in S. exists cs. split; [exact S|]. split; [exact C|]. split; [exact I2|].
    rewrite filter_app. exact (psg_run_app _ _ [PTick] _ _ _ _ _ _ CP P).
Qed.

(** A whole history. *)
Definition boot_po : list pop := flat_map psg_calls (skipn 4 boot_calls).
Definition powered_on : midi := md_set_cb booted true.
Definition psg_done r (po : list pop) (s : app) (tr : list event) : Prop :=
  psg_run (rom_pal r) (rom_envs r) (PReset :: po) psg0 = Done tt (v_psg (a_dev s)) (filter psg_event tr).

Lemma boot_score r hw mem s tr : history r hw mem [] s tr -> a_midi s = powered_on /\ psg_done r boot_po s tr.
Proof.
  intros H. assert (Hh := H). destruct H as (Hr & Hm & _ & E). destruct (app_main_ok r hw mem Hr Hm) as (s0 & o0 & E0 & P & I & Em).
  rewrite (boot_nothing _ _ _ _ _ E0) in E. injection E as <- <-. split; [exact Em|].
  assert (He : PsgSpec.envs_ok (rom_envs r)) by apply Hr.
  destruct boot_calls_split as (t & Et & Hn & Hb). assert (Es : skipn 4 boot_calls = t) by (rewrite Et; reflexivity).
  destruct (first_calls_run r Hr mem Hm) as (s1 & o1 & E1 & I1 & G1 & _ & V & W).
  assert (Hc : Forall MidiSpec.dcall_ok t) by (assert (X := boot_calls_ok); rewrite Et in X; apply Forall_app in X; apply X).
  destruct (perform_all_does r Hr false t s1 I1 G1 Hc ltac:(auto) Hb) as (s2 & o2 & so & (E2 & _ & DP) & I2 & G2 & _).
  assert (E := perform_all_app _ _ _ _ _ _ _ _ _ E1 E2). rewrite <- Et in E.
  destruct (does_syn r (SCallback true) s2 (proj1 (proj1 I2)) Logic.I) as (o3 & E3 & _ & DP3).
  rewrite (app_main_eq r hw mem _ _ _ _ _ _ MidiEffectProofs.midi_init_booted E E3) in E0. injection E0 as <- <-.
  unfold psg_done, boot_po. rewrite Es. cbn [a_dev v_set_synth v_psg]. rewrite !filter_app.
  rewrite W. cbn [Datatypes.app].
  assert (X : filter psg_event o3 = []).
  { cbn in DP3. injection DP3 as Y. symmetry. exact Y. }
  rewrite X, app_nil_r.
  assert (B : psg_run (rom_pal r) (rom_envs r) [PReset] psg0 = Done tt (v_psg s1) []) by (rewrite PsgRunProofs.boot_run by exact He; rewrite V; reflexivity).
  exact (psg_run_app _ _ [PReset] _ _ _ _ _ _ B DP).
Qed.
Lemma history_app r hw mem a b s tr : history r hw mem (a ++ b) s tr -> exists s0 tr0, history r hw mem a s0 tr0.
Proof.
  revert s tr. induction b as [|op b IH] using rev_ind; intros s tr H; [rewrite app_nil_r in H; eauto|].
  rewrite app_assoc in H. apply LibraryProofs.history_prefix in H as (s1 & tr1 & o & H1 & _). exact (IH _ _ H1).
Qed.
Lemma history_same r hw mem ops s tr s' tr' : history r hw mem ops s tr -> history r hw mem ops s' tr' -> s = s' /\ tr = tr'.
Proof. intros (_ & _ & _ & E1) (_ & _ & _ & E2). rewrite E1 in E2. injection E2 as <- <-. auto. Qed.
Lemma history_score r hw mem ops s tr : history r hw mem ops s tr ->
  exists po, score powered_on ops (a_midi s) po /\ psg_done r (boot_po ++ po) s tr /\ Forall pop_ok po.
Proof.
  revert ops s tr. apply history_ind.
  - intros s tr H. destruct (boot_score _ _ _ _ _ H) as [E D]. exists []. rewrite app_nil_r, E. split; [constructor|]. split; [exact D|constructor].
  - intros ops op s tr s' o H (po & S & D & F) Ho E. assert (Hr := proj1 H). destruct (history_played _ _ _ _ _ _ H) as [Hi _].
    destruct (step_score r Hr op s s' o Hi Ho E) as (cs & T & C & _ & P).
    exists (po ++ tick op ++ flat_map psg_calls cs). split; [econstructor; eassumption|]. split.
    + unfold psg_done in *. rewrite app_assoc, filter_app. exact (psg_run_app _ _ (PReset :: boot_po ++ po) _ _ _ _ _ _ D P).
    + apply Forall_app. split; [exact F|]. apply Forall_app. split; [destruct op; repeat constructor|].
      apply Forall_flat_map. rewrite Forall_forall in C |- *. intros c Hc. apply psg_calls_ok, C, Hc.
Qed.
(** The chip, from the calls of midi_psg.c. *)
Lemma att_filter n tr : forall d, chip_att d (filter psg_event tr) n = chip_att d tr n.
Proof.
  induction tr as [|e t IH]; intros d; [reflexivity|]. cbn [filter]. destruct (psg_event e) eqn:E.
  - unfold chip_att in *. cbn [fold_left]. apply IH.
  - unfold chip_att in *. cbn [fold_left]. destruct e; try discriminate; apply IH.
Qed.
Lemma tone_filter n tr : forall d, chip_tone d (filter psg_event tr) n = chip_tone d tr n.
Proof.
  induction tr as [|e t IH]; intros d; [reflexivity|]. cbn [filter]. destruct (psg_event e) eqn:E.
  - unfold chip_tone in *. cbn [fold_left]. apply IH.
  - unfold chip_tone in *. cbn [fold_left]. destruct e; try discriminate; apply IH.
Qed.

(** ** What midi_psg.c holds is what the device channels hold *)
Definition linked (s : midi) (po : list pop) : Prop :=
  forall n d, is_psg n -> dev_at s (6 + n) d -> asked_volume n 127 po = d_vol d /\ asked_program n 0 po = d_prog d.
Lemma asked_volume_app n a : forall d b, asked_volume n d (a ++ b) = asked_volume n (asked_volume n d a) b.
Proof. induction a as [|x t IH]; intros d b; [reflexivity|]. destruct x; cbn [Datatypes.app asked_volume]; apply IH. Qed.
Lemma asked_program_app n a : forall d b, asked_program n d (a ++ b) = asked_program n (asked_program n d a) b.
Proof. induction a as [|x t IH]; intros d b; [reflexivity|]. destruct x; cbn [Datatypes.app asked_program]; apply IH. Qed.
Lemma asked_velocity_app n a : forall d b, asked_velocity n d (a ++ b) = asked_velocity n (asked_velocity n d a) b.
Proof. induction a as [|x t IH]; intros d b; [reflexivity|]. destruct x; cbn [Datatypes.app asked_velocity]; apply IH. Qed.
Lemma asked_pitch_app n a : forall d b, asked_pitch n d (a ++ b) = asked_pitch n (asked_pitch n d a) b.
Proof. induction a as [|x t IH]; intros d b; [reflexivity|]. destruct x; cbn [Datatypes.app asked_pitch]; apply IH. Qed.
Lemma last_load_app a : forall d b, last_load d (a ++ b) = last_load (last_load d a) b.
Proof. induction a as [|x t IH]; intros d b; [reflexivity|]. destruct x; cbn [Datatypes.app last_load]; apply IH. Qed.

(** A call addressed to PSG channel [n]. *)
Definition for_psg (n : Z) (c : dcall) : Prop := call_voice c = Some (VPsg, n).
Lemma other_voice n c : ~ for_psg n c -> forall d, asked_volume n d (psg_calls c) = d /\ asked_program n d (psg_calls c) = d /\ asked_velocity n d (psg_calls c) = d /\ asked_pitch n d (psg_calls c) = d.
Proof.
  unfold for_psg. intros N d.
  destruct c as [v x ? ? ?|v x ?|v x ?|v x ?|v x|v x ?|v x ? ?|? ?|?|?|? ?|?|? ?|?|? ?|?| | | | | |? ? ? ?|? ?]; try (repeat split; reflexivity);
    destruct v; try (repeat split; reflexivity); cbn [psg_calls asked_volume asked_program asked_velocity asked_pitch call_voice] in *;
    (replace (x =? n) with false by (symmetry; apply Z.eqb_neq; intros ->; apply N; reflexivity)); repeat split; reflexivity.
Qed.

Lemma moves_linked op l cs l' po : moves op 0 l cs l' ->
  (forall j d, zget l j = Some d -> 0 <= j < 13 /\ shape_ok j d) ->
  (forall n d, is_psg n -> zget l (6 + n) = Some d -> asked_volume n 127 po = d_vol d /\ asked_program n 0 po = d_prog d) ->
  (forall n d, is_psg n -> zget l' (6 + n) = Some d -> asked_volume n 127 (po ++ flat_map psg_calls cs) = d_vol d /\ asked_program n 0 (po ++ flat_map psg_calls cs) = d_prog d).
Proof.
  intros M Sh L.
  pose (J := fun l (t : list pop) => (forall j d, zget l j = Some d -> 0 <= j < 13 /\ shape_ok j d) /\
    (forall n d, is_psg n -> zget l (6 + n) = Some d -> asked_volume n 127 t = d_vol d /\ asked_program n 0 t = d_prog d)).
  assert (X : J l' (fold_left (fun t c => t ++ psg_calls c) cs po)).
  { apply (moves_inv (fun t c => t ++ psg_calls c) op (fun _ => True) J) with (l := l); [| |exact M|apply Forall_forall; auto|split; assumption].
    - clear. intros l t j d cs d' [Sh L] Hd A _. destruct (Sh j d Hd) as [Hj Hs]. assert (Hs' := atom_shape _ _ _ _ _ Hj A Hs).
      assert (R := zget_Some _ _ _ Hd). split.
      + intros i e He. destruct (Z.eq_dec i j) as [->|N].
        * rewrite zget_zset_same in He by exact R. injection He as <-. auto.
        * rewrite zget_zset_other in He by congruence. auto.
      + assert (E : fold_left (fun t c => t ++ psg_calls c) cs t = t ++ flat_map psg_calls cs).
        { clear. revert t. induction cs as [|c u IH]; intros t; cbn [fold_left flat_map]; [rewrite app_nil_r; reflexivity|]. rewrite IH, app_assoc. reflexivity. }
        rewrite E. intros n e Hn He. rewrite asked_volume_app, asked_program_app.
        assert (Hv : forall c, In c cs -> call_voice c = Some (d_ops d, d_num d) \/ call_voice c = None).
        { intros c Hc. destruct A; cbn in Hc; try (destruct Hc as [<-|[]]; cbn; auto); try contradiction.
          unfold press_calls in Hc. apply in_app_or in Hc as [Hc|[<-|[]]]; [|right; reflexivity]. destruct (back _ _); [|destruct Hc]. destruct Hc as [<-|[]]. left; reflexivity. }
        destruct (Z.eq_dec (6 + n) j) as [<-|N].
        * rewrite zget_zset_same in He by exact R. injection He as <-. destruct (L n d Hn Hd) as [-> ->].
          destruct Hs as (_ & S2 & _). unfold is_psg in Hn. destruct (S2 ltac:(lia)) as [S3 S4]. assert (S5 : d_num d = n) by lia.
          destruct A; cbn [flat_map Datatypes.app]; rewrite ?app_nil_r; cbn [psg_calls]; rewrite ?S4; cbn [psg_calls asked_volume asked_program]; rewrite ?S5, ?Z.eqb_refl; try (split; reflexivity).
          unfold press_calls, pressed. destruct (back _ _); cbn [Datatypes.app flat_map]; rewrite ?S4; cbn [psg_calls Datatypes.app asked_volume asked_program]; rewrite ?S5, ?Z.eqb_refl; split; reflexivity.
        * rewrite zget_zset_other in He by congruence. destruct (L n e Hn He) as [<- <-].
          assert (K : forall c, In c cs -> ~ for_psg n c).
          { intros c Hc F. unfold for_psg in F. destruct (Hv c Hc) as [Y|Y]; rewrite Y in F; [|discriminate]. injection F as F1 F2.
            destruct Hs as (S1 & S2 & S3). unfold is_psg in Hn.
            destruct (Z_lt_dec j 6); [destruct (S1 l0) as [_ [S|[_ S]]]; congruence|]. destruct (Z_lt_dec j 10); [destruct S2 as [S _]; [lia|lia]|]. destruct S3 as [_ S]; [lia|congruence]. }
          clear -K. generalize (asked_volume n 127 t), (asked_program n 0 t). induction cs as [|c u IH]; intros a b; [split; reflexivity|].
          cbn [flat_map]. rewrite asked_volume_app, asked_program_app.
          destruct (other_voice n c (K c (or_introl eq_refl)) a) as (-> & _). destruct (other_voice n c (K c (or_introl eq_refl)) b) as (_ & -> & _).
          apply IH. intros x Hx. apply K. right. exact Hx.
    - clear. intros l t c P _ [Sh L]. split; [exact Sh|]. intros n d Hn Hd. destruct (L n d Hn Hd) as [<- <-].
      rewrite asked_volume_app, asked_program_app. assert (K : ~ for_psg n c) by (unfold for_psg; destruct P as [P _]; rewrite P; discriminate).
      destruct (other_voice n c K (asked_volume n 127 t)) as (-> & _). destruct (other_voice n c K (asked_program n 0 t)) as (_ & -> & _). split; reflexivity. }
  assert (E : fold_left (fun t c => t ++ psg_calls c) cs po = po ++ flat_map psg_calls cs).
  { clear. revert po. induction cs as [|c u IH]; intros t; cbn [fold_left flat_map]; [rewrite app_nil_r; reflexivity|]. rewrite IH, app_assoc. reflexivity. }
  rewrite E in X. exact (proj2 X).
Qed.
Lemma tick_asks n op d : asked_volume n d (tick op) = d /\ asked_program n d (tick op) = d /\ asked_velocity n d (tick op) = d /\ asked_pitch n d (tick op) = d.
Proof. destruct op; repeat split; reflexivity. Qed.
Lemma linked_step op s s' cs po : mop_ok (message op) -> midi_ok s -> steps s (message op) s' cs -> message op <> MReset -> linked s po -> linked s' (po ++ tick op ++ flat_map psg_calls cs).
Proof.
  intros Ho Hs E N L. rewrite app_assoc. unfold linked, dev_at. apply (moves_linked (Some (message op)) (md_dev s) cs).
  - exact (step_moves _ _ _ _ Ho Hs E).
  - intros j d Hd. destruct (ok_dev _ _ _ Hs Hd) as [Hd1 Hj]. split; [exact Hj|apply Hd1].
  - intros n d Hn Hd. rewrite asked_volume_app, asked_program_app. destruct (tick_asks n op (asked_volume n 127 po)) as (-> & _). destruct (tick_asks n op (asked_program n 0 po)) as (_ & -> & _).
    apply L; assumption.
Qed.
Lemma linked_boot : linked powered_on boot_po.
Proof.
  intros n d Hn Hd. unfold is_psg in Hn. assert (C : n = 0 \/ n = 1 \/ n = 2 \/ n = 3) by lia.
  destruct C as [-> | [-> | [-> | ->]]]; vm_compute in Hd; injection Hd as <-; vm_compute; split; reflexivity.
Qed.
