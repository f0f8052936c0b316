(** The whole interface with its screen: power-on, messages and frames. *)
From Coq Require Import String Ascii.
From Verif Require Import Base BaseLemmas SynthModel SynthSpec SynthProofs PsgModel MidiModel MidiSpec MidiProofs MidiEffectProofs.
From Verif Require Import DevModel DevSpec DevProofs AppModel AppSpec AppProofs CommModel TwinProofs.
From Verif Require ResetProofs PsgSpec PsgRunProofs SynthNotifyProofs MidiCallProofs.
From Verif Require Import UiModel UiSpec UiProofs UiPanelProofs UiRunProofs UiNotifyProofs.

(** ** Power-on *)
(** Events the screen does not react to. *)
Definition mute (e : event) : Prop := match e with EvParam _ _ | EvMidiChange _ _ _ _ | EvUi _ _ => False | _ => True end.
Lemma mute_forM m o u : Forall mute o -> forM o (ui_event m) u = Done tt u [].
Proof.
  induction 1 as [|e o He _ IH]; [reflexivity|]. cbn [forM]. unfold bind.
  replace (ui_event m e) with (@ret ui unit tt) by (destruct e; cbn in He; try contradiction; reflexivity).
  cbn. rewrite IH. reflexivity.
Qed.
Lemma mute_of o : notified o = [] -> filter ui_ev o = [] -> Forall mute o.
Proof.
  induction o as [|e o IH]; intros H1 H2; [constructor|]. destruct e; cbn in H1, H2; try discriminate; (constructor; [exact I|auto]).
Qed.
Lemma notified_fm o : notified o = notified (filter fm_event o).
Proof. unfold notified. induction o as [|e o IH]; [reflexivity|]. destruct e; cbn; rewrite IH; reflexivity. Qed.
Lemma run_quiet so : forall s s' o, Forall (fun x => forall b, x <> SCallback b) so -> s_cb s = false -> synth_run so s = Done tt s' o ->
  notified o = [] /\ s_cb s' = false.
Proof.
  induction so as [|x so IH]; intros s s' o Hn Hcb E.
  - injection E as <- <-. auto.
  - unfold synth_run in E. cbn [runM] in E. apply bind_inv in E as ([] & s1 & o1 & o2 & E1 & E2 & ->).
    destruct (SynthNotifyProofs.nq_step x (Forall_inv Hn) _ _ _ E1) as [K1 K2]. rewrite Hcb in K1, K2.
    destruct (IH s1 s' o2 (Forall_inv_tail Hn) K1 E2) as [K3 K4]. rewrite SynthNotifyProofs.notified_app, K2, K3. auto.
Qed.

Section Main.
Context (r : rom) (Hr : rom_ok r).

Definition no_callback (c : dcall) : Prop := match c with DSynth (SCallback _) => False | _ => True end.
Lemma calls_quiet det cs : forall a a' o, dev_inv a -> psg_good r (v_psg a) -> Forall dcall_ok cs -> (In DFmInit cs -> det = false) ->
  Forall no_callback cs -> s_cb (v_synth a) = false -> perform_all r det cs a = Done tt a' o -> notified o = [].
Proof.
  induction cs as [|c t IH]; intros a a' o I G Hc Hd Hn Hcb E.
  - injection E as _ <-. reflexivity.
  - unfold perform_all in E. cbn [runM] in E. apply bind_inv in E as ([] & a1 & o1 & o2 & E1 & E2 & ->).
    assert (Hb : ~ beyond_samples c). { intros B. rewrite (perform_beyond r Hr det c a B) in E1. discriminate. }
    assert (Hd1 : c = DFmInit -> det = false) by (intros ->; apply Hd; left; reflexivity).
    destruct (perform_does r Hr det c a I G (Forall_inv Hc) Hd1 Hb) as (a2 & o3 & (E3 & S3 & _) & _ & I2 & G2).
    rewrite E1 in E3. injection E3 as <- <-.
    destruct (run_quiet (synth_calls r a c) (v_synth a) (v_synth a1) (filter fm_event o1)) as [K1 K2]; [|exact Hcb|exact S3|].
    { apply Forall_forall. intros x Hx b ->. apply ResetProofs.callback_call in Hx. subst c. exact (Forall_inv Hn). }
    rewrite SynthNotifyProofs.notified_app, notified_fm, K1.
    apply (IH a1 a' o2 I2 G2 (Forall_inv_tail Hc)); [intros H; apply Hd; right; exact H|exact (Forall_inv_tail Hn)|exact K2|exact E2].
Qed.
Lemma boot_mute mem a o : mem_ok mem -> perform_all r false boot_calls (devst0 mem) = Done tt a o -> Forall mute o.
Proof.
  intros Hm E. assert (H0 := devst0_inv mem Hm). assert (He : PsgSpec.envs_ok (rom_envs r)) by apply Hr.
  set (s1 := v_set_psg (devst0 mem) PsgRunProofs.boot_state).
  assert (I1 : dev_inv s1) by exact H0.
  assert (G1 : psg_good r (v_psg s1)) by (exists (-1); exact (PsgRunProofs.boot_inv _ He)).
  assert (E1 : perform r false DPsgInit (devst0 mem) = Done tt s1 []).
  { cbn [perform]. unfold ps, lift. cbn [psg_step devst0 v_psg]. rewrite PsgRunProofs.reset_exec by (exact He || reflexivity). reflexivity. }
  assert (B : boot_calls = DPsgInit :: tl boot_calls) by (vm_compute; reflexivity).
  assert (K : Forall dcall_ok (tl boot_calls)).
  { assert (H := boot_calls_ok). rewrite B in H. exact (Forall_inv_tail H). }
  assert (N : Forall no_callback (tl boot_calls)) by (vm_compute; repeat constructor).
  assert (U : flat_map ui_call (tl boot_calls) = []) by (vm_compute; reflexivity).
  rewrite B in E. revert E K N U. generalize (tl boot_calls) as t. intros t E K N U.
  unfold perform_all in E. cbn [runM] in E. apply bind_inv in E as ([] & a1 & o1 & o2 & E2 & E3 & ->).
  rewrite E1 in E2. injection E2 as <- <-. cbn [Datatypes.app]. apply mute_of.
  - apply (calls_quiet false t s1 a o2 I1 G1 K); [auto|exact N|reflexivity|exact E3].
  - rewrite (perform_all_ui r Hr false t s1 a o2 I1 G1 K); [exact U|auto|exact E3].
Qed.
End Main.

(** What ui_init draws on an empty screen. *)
Definition near_blank (scr : Z -> Z -> Z) : bool :=
  forallb (fun y => forallb (fun x =>
    if existsb (Z.eqb (region x y)) [NOTES; CHANGES; MARK; PANEL] then scr x y =? BLANK else true) (zseq 3 54)) (zseq 3 19).
Definition cells_are (scr : Z -> Z -> Z) (h : list Z * Z * Z) : bool :=
  forallb (fun k => match zget (fst (fst h)) k with Some c => scr (snd (fst h) + k) (snd h) =? c | None => true end) (zseq 0 (List.length (fst (fst h)))).
Definition start_facts (u : ui) : Prop :=
  u_pitches u = repeat 0 10 /\ u_changes u = repeat (mkChange 0 0 0 0) 10 /\ u_inited u = false /\ u_mode u = DISCOVERY /\
  u_ch3 u = false /\ u_act u = 0 /\ u_logy u = 0 /\ u_dyn u = false /\ u_icon u = false /\ u_panel u = panel0 /\
  near_blank (u_scr u) = true /\
  forallb (fun k => u_scr u (9 + k) 26 =? 2000 + 100 * PIC_WAITING + k) (zseq 0 7) = true /\
  forallb (fun k => u_scr u (17 + k) 26 =? BLANK) (zseq 0 5) = true /\
  forallb (cells_are (u_scr u)) label_cells = true /\
  forallb (cells_are (u_scr u)) (combine (combine (map map_text (mapped booted)) (repeat 4 10)) (map row_y (zseq 0 10))) = true /\
  u_meter u = meter0 /\ forallb (fun k => u_scr u (2 + k) 26 =? 1004 + k) (zseq 0 4) = true.
Lemma start_facts_ok : match ui_start booted ui0 with Done _ u _ => start_facts u | Fault _ => False end.
Proof. vm_compute. repeat split. Qed.

Lemma cells_are_text scr h : cells_are scr h = true -> text_at scr (fst (fst h)) (snd (fst h)) (snd h).
Proof.
  unfold cells_are. intros H k c Hc. rewrite forallb_forall in H. specialize (H k).
  rewrite Hc in H. apply Z.eqb_eq, H, in_zseq0. eapply zget_Some; eassumption.
Qed.
Lemma near_blank_cell scr x y : near_blank scr = true -> In (region x y) [NOTES; CHANGES; MARK; PANEL] -> scr x y = BLANK.
Proof.
  intros H Hr. unfold near_blank in H. rewrite forallb_forall in H.
  assert (R : 3 <= y < 22 /\ 3 <= x < 57).
  { clear -Hr. cbn in Hr. region_tac. revert Hr. decide_all. }
  specialize (H y). rewrite forallb_forall in H. specialize (H ltac:(apply in_zseq; lia) x ltac:(apply in_zseq; lia)). cbv beta in H.
  replace (existsb (Z.eqb (region x y)) [NOTES; CHANGES; MARK; PANEL]) with true in H; [apply Z.eqb_eq, H|].
  symmetry. apply existsb_exists. exists (region x y). split; [exact Hr|apply Z.eqb_refl].
Qed.
Lemma start_inv u : start_facts u -> ui_inv u /\ map_cells (u_scr u) (mapped booted).
Proof.
  intros (P & C & A1 & A2 & A3 & A4 & A5 & A6 & A7 & Q & B & M & _ & L & Mp & _).
  assert (Bl := fun x y => near_blank_cell (u_scr u) x y B). split.
  - split; [|split; [|split; [|split; [|split; [|split; [|split; [|split; [|split]]]]]]]].
    + split; [rewrite P; reflexivity|]. intros i p Hp. rewrite P in Hp. assert (Ri := zget_Some _ _ _ Hp). cbn [List.length repeat] in Ri.
      assert (p = 0). { eapply (Forall_zget (fun p => p = 0)) in Hp; [exact Hp|]. repeat constructor. } subst p. intros k Hk. apply Bl. left. symmetry.
      unfold row_y. region_tac. decide_all.
    + split; [rewrite C; reflexivity|]. intros i c Hc. rewrite C in Hc. assert (Ri := zget_Some _ _ _ Hc). cbn [List.length repeat] in Ri.
      assert (c = mkChange 0 0 0 0). { eapply (Forall_zget (fun c => c = mkChange 0 0 0 0)) in Hc; [exact Hc|]. repeat constructor. } subst c.
      split; [cbn; lia|]. split; [auto|]. split; [|cbn; tauto]. intros _ k Hk. apply Bl. right; left. symmetry. unfold row_y. region_tac. decide_all.
    + split; [rewrite A1, A2; reflexivity|]. rewrite A2. cbn. rewrite forallb_forall in M. intros k Hk. replace (k <? 7) with true by lia.
      specialize (M k ltac:(apply in_zseq0; cbn; lia)). apply Z.eqb_eq in M. rewrite M. unfold PIC_WAITING. lia.
    + unfold inv_mark. rewrite A3. apply Bl. cbn. auto.
    + unfold panel_inv. rewrite Q. cbn. split; [split; [reflexivity|split; [|split; [reflexivity|lia]]]|].
      * split; [reflexivity|]. repeat constructor.
      * split; [auto|]. split; [|split; discriminate]. intros _. split; [intros x y R; apply Bl; rewrite R; cbn; auto|].
        intros k Hk. apply (zget_repeat_in false 8). lia.
    + unfold labels. rewrite forallb_forall in L. apply Forall_forall. intros h Hh. apply cells_are_text, L, Hh.
    + congruence.
    + rewrite A5. lia.
    + rewrite A4. lia.
    + rewrite Q. cbn. lia.
  - intros i c Hc. rewrite forallb_forall in Mp. assert (Ri := zget_Some _ _ _ Hc).
    change (List.length (mapped booted)) with 10%nat in Ri.
    apply (cells_are_text (u_scr u) (map_text c, 4, row_y i)). apply Mp.
    assert (Z1 : zget (combine (combine (map map_text (mapped booted)) (repeat 4 10)) (map row_y (zseq 0 10))) i = Some (map_text c, 4, row_y i)).
    { rewrite !zget_combine, zget_map, Hc, (zget_repeat_in 4 10) by lia. cbn [option_map]. rewrite zget_map.
      assert (Z2 : zget (zseq 0 10) i = Some i).
      { assert (X : i = 0 \/ i = 1 \/ i = 2 \/ i = 3 \/ i = 4 \/ i = 5 \/ i = 6 \/ i = 7 \/ i = 8 \/ i = 9) by lia.
        repeat destruct X as [->|X]; try reflexivity. subst i. reflexivity. }
      rewrite Z2. reflexivity. }
    unfold zget in Z1. destruct (i <? 0); [discriminate|]. eapply nth_error_In. exact Z1.
Qed.

Lemma on_app_inv f s a s' o : on_app f s = Done a s' o -> f (y_app s) = Done tt (y_app s') o.
Proof.
  unfold on_app. destruct (f (y_app s)) as [[] x o1|]; [|discriminate]. destruct (forM _ _ _) as [[] u _|]; [|discriminate].
  intros [= _ <- <-]. reflexivity.
Qed.
Lemma on_ui_inv f s a s' o : on_ui f s = Done a s' o -> o = [] /\ y_app s' = y_app s.
Proof. unfold on_ui. destruct (f (y_app s) (y_ui s)) as [[] u o1|]; [|discriminate]. intros [= _ <- <-]. auto. Qed.

(** After power-on. *)
Definition start_post (u : ui) : Prop :=
  ui_inv u /\ map_cells (u_scr u) (mapped booted) /\ u_pitches u = repeat 0 10 /\ u_changes u = repeat (mkChange 0 0 0 0) 10 /\
  u_inited u = false /\ u_mode u = DISCOVERY /\ u_ch3 u = false /\ u_act u = 0 /\ u_logy u = 0 /\ u_dyn u = false /\ u_panel u = panel0 /\
  u_meter u = meter0 /\ lamp_cells (u_scr u) 0.
(** What is attached. *)
Definition attached_cells (x7 pro : bool) (scr : Z -> Z -> Z) : Prop :=
  forall k, 0 <= k < 5 -> scr (17 + k) 26 = if pro then 2000 + 100 * PIC_WAIT_EDPRO + k else if x7 then 2000 + 100 * PIC_WAIT_EDX7 + k else BLANK.
Lemma present_wp x7 pro u : start_post u -> blank_at (u_scr u) 17 26 5 ->
  exists u', ui_print_present_devices x7 pro u = Done tt u' [] /\ start_post u' /\ attached_cells x7 pro (u_scr u').
Proof.
  intros H Hb. assert (Img : forall pic, start_post (set_scr u (fun cx cy =>
    if in_rect COMM_EXTRA_X (MAX_EFFECTIVE_Y + 1) 5 1 cx cy then 2000 + 100 * pic + 10 * (cy - (MAX_EFFECTIVE_Y + 1)) + (cx - COMM_EXTRA_X) else u_scr u cx cy))).
  { intros pic. set (u' := set_scr u _).
    assert (O : only [ATTACHED] (u_scr u) (u_scr u')).
    { intros x y Hn. unfold u'. cbn [u_scr set_scr]. destruct (in_rect _ _ _ _ x y) eqn:E; [|reflexivity]. destruct Hn. left. symmetry.
      unfold in_rect, COMM_EXTRA_X, MAX_EFFECTIVE_Y in E. region_tac. decide_all. }
    destruct H as (I & Mp & B1 & B2 & B3 & B4 & B5 & B6 & B7 & B8 & B9 & B10 & Lc). split; [|split].
    - assert (I' := I). destruct I' as (_ & _ & _ & _ & _ & _ & X1 & X2 & X3 & _).
      apply (inv_step [ATTACHED] u u' I O); [not_in|kept_refl..|exact X1|exact X2|exact X3].
    - eapply map_kept; [reflexivity|exact O|not_in|exact Mp].
    - repeat (split; [assumption|]). intros k Hk. rewrite (lamps_kept _ _ _ O ltac:(not_in) k Hk). apply Lc, Hk. }
  assert (Pic : forall pic k, 0 <= k < 5 -> (if in_rect COMM_EXTRA_X (MAX_EFFECTIVE_Y + 1) 5 1 (17 + k) 26 then
    2000 + 100 * pic + 10 * (26 - (MAX_EFFECTIVE_Y + 1)) + (17 + k - COMM_EXTRA_X) else u_scr u (17 + k) 26) = 2000 + 100 * pic + k).
  { intros pic k Hk. unfold COMM_EXTRA_X, MAX_EFFECTIVE_Y. replace (in_rect 17 (25 + 1) 5 1 (17 + k) 26) with true by (unfold in_rect; lia). lia. }
  unfold ui_print_present_devices, when. destruct pro; [eexists; split; [reflexivity|split; [apply Img|intros k Hk; apply Pic, Hk]]|].
  destruct x7; [eexists; split; [reflexivity|split; [apply Img|intros k Hk; apply Pic, Hk]]|]. exists u. split; [reflexivity|]. split; [exact H|exact Hb].
Qed.

Lemma app_midi_runs r f s a1 o1 m cs : f (a_midi s) = WDone m cs -> app_midi r f s = Done tt a1 o1 ->
  a_midi a1 = m /\ perform_all r (detected s) cs (a_dev s) = Done tt (a_dev a1) o1.
Proof.
  intros Em E. unfold app_midi in E. rewrite Em in E.
  destruct (perform_all r (detected s) cs (a_dev s)) as [[] d o|]; [|discriminate]. apply done_inj in E as (_ & <- & <-). auto.
Qed.
Lemma boot_midi r mem a1 o1 : rom_ok r -> mem_ok mem -> app_midi r midi_init (app0 mem) = Done tt a1 o1 -> a_midi a1 = booted /\ Forall mute o1.
Proof.
  intros Hr Hm E1. destruct (app_midi_runs r midi_init (app0 mem) a1 o1 booted boot_calls midi_init_booted E1) as [E2 E3].
  split; [exact E2|]. exact (boot_mute r Hr mem _ _ Hm E3).
Qed.
Lemma register_mute r a1 a2 o2 : ui_init r a1 = Done tt a2 o2 -> Forall mute o2.
Proof.
  intros E2. unfold ui_init in E2. apply bind_inv in E2 as ([] & b & p1 & p2 & F1 & F2 & ->). unfold app_midi in F1. cbn in F1. injection F1 as <- <-.
  unfold app_dev, lift in F2. cbn [a_dev] in F2.
  destruct (syn (SCallback true) (a_dev a1)) as [[] d o|] eqn:E; [|discriminate]. injection F2 as _ <-.
  unfold syn, lift in E. cbn in E. injection E as _ <-. constructor.
Qed.
Lemma no_startup r a3 s0 o3' : startup r RxModel.STARTUP_MIDI_SEQUENCE a3 = Done tt s0 o3' -> s0 = a3 /\ o3' = [].
Proof. intros E4. unfold startup in E4. cbn in E4. injection E4 as <- <-. auto. Qed.
Lemma u_main_runs r mw hw s a1 a2 a3 o1 o2 u1 ou u2 :
  app_midi r midi_init (y_app s) = Done tt a1 o1 -> Forall mute o1 -> ui_start (a_midi a1) (y_ui s) = Done tt u1 ou ->
  ui_init r a1 = Done tt a2 o2 -> Forall mute o2 -> comm_init hw a2 = Done tt a3 [] ->
  ui_print_present_devices (a_x7 a3) (a_pro a3) u1 = Done tt u2 [] ->
  u_main r mw hw s = Done tt (mkSys a3 u2) (o1 ++ o2).
Proof.
  intros E1 Q1 Eu E2 M2 E3 Ep. unfold u_main. eapply bind_done.
  { unfold on_app. rewrite E1. rewrite (mute_forM _ _ _ Q1). reflexivity. }
  replace o2 with ([] ++ o2 ++ [] ++ [] ++ @nil event) by (rewrite !app_nil_r; reflexivity).
  eapply bind_done.
  { unfold on_ui. cbn [y_app y_ui]. rewrite Eu. reflexivity. }
  eapply bind_done. { unfold on_app. cbn [y_app y_ui]. rewrite E2, (mute_forM _ _ _ M2). reflexivity. }
  eapply bind_done. { unfold on_app. cbn [y_app y_ui]. rewrite E3. reflexivity. }
  eapply bind_done. { unfold on_ui. cbn [y_app y_ui]. rewrite Ep. reflexivity. }
  reflexivity.
Qed.
Lemma started u : start_facts u -> start_post u.
Proof. intros SF. destruct (start_inv u SF) as [I1 I2]. 
  assert (Lc : lamp_cells (u_scr u) 0).
  { destruct SF as (_ & _ & _ & _ & _ & _ & _ & _ & _ & _ & _ & _ & _ & _ & _ & _ & B). rewrite forallb_forall in B.
    intros k Hk. apply Z.eqb_eq. apply (B k). apply in_zseq0. cbn. lia. }
  unfold start_facts in SF. unfold start_post. tauto.
Qed.
Lemma started_blank u : start_facts u -> blank_at (u_scr u) 17 26 5.
Proof.
  intros (_ & _ & _ & _ & _ & _ & _ & _ & _ & _ & _ & _ & B & _) k Hk. rewrite forallb_forall in B. apply Z.eqb_eq. apply (B k). apply in_zseq0. cbn. lia.
Qed.
Lemma start_runs : exists u ou, ui_start booted ui0 = Done tt u ou /\ start_post u /\ blank_at (u_scr u) 17 26 5.
Proof.
  assert (SF := start_facts_ok). revert SF. generalize (ui_start booted ui0) as x. intros x SF. destruct x as [[] u1 ou|]; [|contradiction].
  exists u1, ou. split; [reflexivity|]. split; [apply started, SF|apply started_blank, SF].
Qed.

Lemma u_main_like r mw hw s b s0 o0 u1 ou : app_main r hw RxModel.STARTUP_MIDI_SEQUENCE (y_app s) = Done tt s0 o0 ->
  (forall a1 o1, app_midi r midi_init (y_app s) = Done tt a1 o1 -> a_midi a1 = b /\ Forall mute o1) ->
  ui_start b (y_ui s) = Done tt u1 ou -> start_post u1 -> blank_at (u_scr u1) 17 26 5 ->
  exists u, u_main r mw hw s = Done tt (mkSys s0 u) o0 /\ (start_post u /\ attached_cells (x7_detected hw) (pro_detected hw) (u_scr u)) /\ Forall mute o0.
Proof.
  intros E0 Hb Eu SP Bl. unfold app_main in E0. apply bind_inv in E0 as ([] & a1 & o1 & o1' & E1 & E2 & ->).
  apply bind_inv in E2 as ([] & a2 & o2 & o2' & E2 & E3 & ->). apply bind_inv in E3 as ([] & a3 & o3 & o3' & E3 & E4 & ->).
  destruct (Hb _ _ E1) as [M1 Q1]. assert (M2 := register_mute _ _ _ _ E2).
  assert (M3 : o3 = [] /\ a_x7 a3 = x7_detected hw /\ a_pro a3 = pro_detected hw) by (unfold comm_init in E3; injection E3 as <- <-; auto).
  destruct M3 as (M3 & X1 & X2).
  destruct (no_startup _ _ _ _ E4) as [-> ->]. subst o3 b. rewrite !app_nil_r.
  destruct (present_wp (a_x7 a3) (a_pro a3) u1 SP Bl) as (u2 & Ep & SP2). rewrite X1, X2 in SP2.
  exists u2. split; [|split; [exact SP2|]].
  - eapply u_main_runs; eassumption.
  - apply Forall_app. split; [exact Q1|exact M2].
Qed.
Lemma u_main_ok r mw hw mem : rom_ok r -> mem_ok mem ->
  exists a u o, u_main r mw hw (mkSys (app0 mem) ui0) = Done tt (mkSys a u) o /\
    powered r hw mem a o /\ (start_post u /\ attached_cells (x7_detected hw) (pro_detected hw) (u_scr u)) /\ Forall mute o.
Proof.
  intros Hr Hm. destruct (app_main_ok r hw mem Hr Hm) as (s0 & o0 & E0 & _). destruct start_runs as (u1 & ou & Eu & SP & Bl).
  destruct (u_main_like r mw hw (mkSys (app0 mem) ui0) booted s0 o0 u1 ou E0 (fun a1 o1 => boot_midi r mem a1 o1 Hr Hm) Eu SP Bl) as (u & H1 & H2).
  exists s0, u, o0. split; [exact H1|]. split; [exact E0|exact H2].
Qed.

(** ** Histories *)
Lemma u_step_erase r mw op s s' o : u_step r mw op s = Done tt s' o -> app_step r (heard op) (y_app s) = Done tt (y_app s') o.
Proof.
  destruct op as [m|delta c log]; cbn [u_step heard]; intros E; [exact (on_app_inv _ _ _ _ _ E)|].
  apply bind_inv in E as ([] & s1 & o1 & o2 & E1 & E2 & ->). apply on_app_inv in E1. apply on_ui_inv in E2 as [-> ->].
  rewrite app_nil_r. exact E1.
Qed.
Lemma u_boot_snoc r mw hw mem ops op s tr : u_boot r mw hw mem (ops ++ [op]) = Done tt s tr ->
  exists s1 o1 o2, u_boot r mw hw mem ops = Done tt s1 o1 /\ u_step r mw op s1 = Done tt s o2 /\ tr = o1 ++ o2.
Proof.
  unfold u_boot. intros H. apply bind_inv in H as ([] & s0 & o0 & o1 & E0 & E1 & ->).
  unfold u_run in E1. rewrite runM_app in E1. apply bind_inv in E1 as ([] & s1 & o2 & o3 & E1 & E2 & ->).
  cbn [runM] in E2. apply bind_inv in E2 as ([] & s2 & o4 & o5 & E2 & E3 & ->). injection E3 as <- <-.
  exists s1, (o0 ++ o2), o4. rewrite app_nil_r, app_assoc. split; [exact (bind_done _ _ _ _ _ _ _ _ _ E0 E1)|]. auto.
Qed.
Lemma u_boot_step r mw hw mem ops op s tr s' o : u_boot r mw hw mem ops = Done tt s tr -> u_step r mw op s = Done tt s' o ->
  u_boot r mw hw mem (ops ++ [op]) = Done tt s' (tr ++ o).
Proof.
  unfold u_boot. intros H H2. apply bind_inv in H as ([] & s0 & o0 & o1 & E0 & E1 & ->). rewrite <- app_assoc.
  apply (bind_done _ _ _ _ _ _ _ _ _ E0). unfold u_run in *. rewrite runM_app. apply (bind_done _ _ _ _ _ _ _ _ _ E1).
  rewrite <- (app_nil_r o). cbn [runM]. exact (bind_done _ _ _ _ _ _ _ _ _ H2 eq_refl).
Qed.
Lemma u_boot_fault r mw hw mem ops op s tr f : u_boot r mw hw mem ops = Done tt s tr -> u_step r mw op s = Fault f ->
  u_boot r mw hw mem (ops ++ [op]) = Fault f.
Proof.
  unfold u_boot. intros H H2. apply bind_inv in H as ([] & s0 & o0 & o1 & E0 & E1 & ->). unfold bind at 1. rewrite E0.
  unfold u_run in *. rewrite runM_app. unfold bind. rewrite E1. cbn [runM]. unfold bind. rewrite H2. reflexivity.
Qed.
Lemma u_boot_prefix r mw hw mem ops op f : u_boot r mw hw mem ops = Fault f -> u_boot r mw hw mem (ops ++ [op]) = Fault f.
Proof.
  unfold u_boot, bind at 1 2. destruct (u_main r mw hw _) as [[] s o|]; [|auto]. unfold u_run. rewrite runM_app. unfold bind.
  destruct (runM (u_step r mw) ops s) as [[] s1 o1|]; [discriminate|auto].
Qed.

Lemma heard_ok op : uop_ok op -> aop_ok (heard op) /\ ~ registers (message (heard op)).
Proof.
  destruct op as [m|delta c log]; cbn.
  - intros [H1 H2]. auto.
  - intros _. split; [exact I|]. intros [b [=]].
Qed.
Lemma watched_snoc r mw hw mem ops op s tr s' o : watched r mw hw mem ops s tr -> uop_ok op -> u_step r mw op s = Done tt s' o ->
  watched r mw hw mem (ops ++ [op]) s' (tr ++ o).
Proof.
  intros (Hr & Hm & Ho & E) H1 H2. split; [exact Hr|]. split; [exact Hm|]. split; [apply Forall_app; auto|]. eapply u_boot_step; eassumption.
Qed.
Lemma watched_inv r mw hw mem ops op s tr : watched r mw hw mem (ops ++ [op]) s tr ->
  exists s1 o1 o2, watched r mw hw mem ops s1 o1 /\ uop_ok op /\ u_step r mw op s1 = Done tt s o2 /\ tr = o1 ++ o2.
Proof.
  intros (Hr & Hm & Ho & E). apply Forall_app in Ho as [Ho1 Ho2]. apply u_boot_snoc in E as (s1 & o1 & o2 & E1 & E2 & ->).
  exists s1, o1, o2. split; [split; [exact Hr|split; [exact Hm|split; [exact Ho1|exact E1]]]|]. split; [exact (Forall_inv Ho2)|]. auto.
Qed.
Lemma watched_ind r mw hw mem (J : list uop -> sys -> list event -> Prop) :
  (forall s tr, watched r mw hw mem [] s tr -> J [] s tr) ->
  (forall ops op s tr s' o, watched r mw hw mem ops s tr -> J ops s tr -> uop_ok op -> u_step r mw op s = Done tt s' o ->
     J (ops ++ [op]) s' (tr ++ o)) ->
  forall ops s tr, watched r mw hw mem ops s tr -> J ops s tr.
Proof.
  intros H0 Hs. induction ops as [|op ops IH] using rev_ind; intros s tr H; [exact (H0 _ _ H)|].
  apply watched_inv in H as (s1 & o1 & o2 & H & Ho & E & ->). eapply Hs; [exact H|apply IH, H|exact Ho|exact E].
Qed.
Lemma run_nil r mw (m : M sys unit) (z : sys) s tr : (m ;; u_run r mw []) z = Done tt s tr -> m z = Done tt s tr.
Proof.
  intros E. apply bind_inv in E as ([] & s0 & o1 & o2 & F1 & F2 & ->). unfold u_run in F2. cbn [runM] in F2.
  apply done_inj in F2 as (_ & <- & <-). rewrite app_nil_r. exact F1.
Qed.
Lemma u_boot_nil r mw hw mem s tr : u_boot r mw hw mem [] = Done tt s tr -> u_main r mw hw (mkSys (app0 mem) ui0) = Done tt s tr.
Proof. unfold u_boot. apply run_nil. Qed.
Lemma same_start (P : app -> list event -> Prop) (Q : ui -> Prop) (x : res sys unit) s tr a u o : x = Done tt s tr -> x = Done tt (mkSys a u) o ->
  P a o -> Q u -> Forall mute o -> P (y_app s) tr /\ Q (y_ui s) /\ Forall mute tr.
Proof. intros E1 E2 H1 H2 H3. rewrite E1 in E2. apply done_inj in E2 as (_ & -> & ->). auto. Qed.
Lemma watched_start r mw hw mem s tr : watched r mw hw mem [] s tr ->
  powered r hw mem (y_app s) tr /\ (start_post (y_ui s) /\ attached_cells (x7_detected hw) (pro_detected hw) (u_scr (y_ui s))) /\ Forall mute tr.
Proof.
  intros (Hr & Hm & _ & E). destruct (u_main_ok r mw hw mem Hr Hm) as (a & u & o & E1 & P & S & Q).
  exact (same_start (powered r hw mem) (fun u => start_post u /\ attached_cells (x7_detected hw) (pro_detected hw) (u_scr u)) _ s tr a u o
    (u_boot_nil _ _ _ _ _ _ E) E1 P S Q).
Qed.
Lemma watched_nothing r mw hw mem s tr : watched r mw hw mem [] s tr ->
  powered r hw mem (y_app s) tr /\ start_post (y_ui s) /\ Forall mute tr.
Proof. intros H. apply watched_start in H as (A & (B & _) & C). auto. Qed.
(** The interface does the same with and without its screen. *)
Theorem watched_history r mw hw mem ops s tr : watched r mw hw mem ops s tr -> history r hw mem (map heard ops) (y_app s) tr.
Proof.
  intros H. assert (Hr : rom_ok r /\ mem_ok mem) by (split; apply H). destruct Hr as [Hr Hm]. revert H. revert ops s tr. apply watched_ind.
  - intros s tr H. apply watched_nothing in H as (P & _). split; [exact Hr|]. split; [exact Hm|]. split; [constructor|]. exact (boot_nothing _ _ _ _ _ P).
  - intros ops op s tr s' o _ IH Ho E. rewrite map_app. eapply history_snoc; [exact IH|apply heard_ok, Ho|eapply u_step_erase, E].
Qed.
Lemma heard_quiet ops : Forall uop_ok ops -> without registers (map heard ops).
Proof.
  intros H m Hin R. apply in_map_iff in Hin as (op & E & Hin). rewrite Forall_forall in H. specialize (H op Hin).
  destruct op; cbn in E; [|discriminate]. injection E as ->. destruct H as [_ H]. exact (H R).
Qed.
Lemma watched_cb r mw hw mem ops s tr : watched r mw hw mem ops s tr -> md_cb (midi_of s) = true /\ s_cb (synth_of s) = true.
Proof.
  intros H. eapply ResetProofs.history_cb; [eapply watched_history; exact H|apply heard_quiet, H].
Qed.
Lemma watched_app r mw hw mem ops s tr : watched r mw hw mem ops s tr -> app_inv r (y_app s).
Proof. intros H. apply watched_history in H. apply history_played in H. apply H. Qed.

(** ** A step *)
Lemma reports_ok s m : mop_ok m -> Forall ev_ok (reports s m).
Proof.
  intros H. destruct m; try constructor; cbn [mop_ok] in H; try (cbn; auto; fail).
  - destruct H as (Hc & _). unfold reports. apply Forall_app. split; [destruct (_ && _); [|constructor]|].
    + constructor; [exact Hc|constructor].
    + constructor; [cbn; auto|constructor].
Qed.
Lemma events_ok o s m : mop_ok m -> filter ui_ev o = reports s m -> Forall ev_ok o.
Proof.
  intros Hm E. assert (K := reports_ok s m Hm). rewrite <- E in K. rewrite Forall_forall in *. intros e He.
  destruct (ui_ev e) eqn:Ee; [apply K, filter_In; auto|]. destruct e; cbn in *; try exact I; discriminate.
Qed.

Section Step.
Context (r : rom) (Hr : rom_ok r) (mw : bool).

Definition alive (s : sys) : Prop :=
  app_inv r (y_app s) /\ ui_inv (y_ui s) /\ md_cb (midi_of s) = true /\ s_cb (synth_of s) = true.

Lemma part_ok op s a o : alive s -> aop_ok op -> ~ registers (message op) -> app_step r op (y_app s) = Done tt a o ->
  exists u, on_app (app_step r op) s = Done tt (mkSys a u) o /\ calls_post (a_midi a) o (y_ui s) u /\
    app_inv r a /\ filter ui_ev o = reports (midi_of s) (message op).
Proof.
  intros (Hi & Hu & C1 & C2) Ho Hn E.
  assert (Ia : app_inv r a).
  { destruct (app_step_ok r Hr op (y_app s) Hi Ho) as [(s1 & o1 & so & po & E1 & I1 & _)|[[E1 _]|[E1 _]]];
      rewrite E in E1; try discriminate. apply done_inj in E1 as (_ & <- & _). exact I1. }
  assert (Rp := step_reports r Hr op (y_app s) a o Hi Ho Hn C1 E).
  assert (Ev : Forall ev_ok o). { eapply events_ok; [|exact Rp]. destruct op; [exact Ho|exact I]. }
  assert (W := calls_wp False (a_midi a) o (y_ui s) Hu (proj1 Ia) Ev). unfold wp in W.
  unfold on_app. rewrite E. destruct (forM o (ui_event (a_midi a)) (y_ui s)) as [[] u ou|]; [|contradiction].
  exists u. auto.
Qed.

Lemma fresh_step op s s' o u' : app_inv r s -> aop_ok op -> message op <> MReset -> s_cb (v_synth (a_dev s)) = true ->
  app_step r op s = Done tt s' o -> forall u, calls_post (a_midi s') o u u' -> fresh (v_synth (a_dev s)) u -> fresh (v_synth (a_dev s')) u'.
Proof.
  intros Hi Ho Hm Hcb E u (_ & _ & _ & D & _) F Sh Di. destruct (D Di) as [Ep Ns]. rewrite Ep in Sh, Di |- *.
  destruct (F Sh Di) as (c & E1 & E2 & E3 & E4).
  destruct (step_notifies r Hr op s s' o (q_fm (u_panel u)) Hi Ho Hm Hcb E) as [(ch & k & Hin & Hk)|V].
  - exfalso. rewrite Forall_forall in Ns. exact (Ns _ Hin Hk).
  - unfold view in V. rewrite E1 in V. cbn [option_map] in V.
    destruct (zget (s_chans (v_synth (a_dev s'))) (q_fm (u_panel u))) as [c'|] eqn:E1'; [|discriminate]. cbn [option_map] in V.
    injection V as V1 V2 V3 V4 V5 V6 V7 V8. exists c'. split; [exact E1'|].
    unfold field_values, op_values in *. rewrite V1, V2, V3, V4, V5, V6, V7, V8. auto.
Qed.

Lemma drawable_all s n ch : synth_ok s -> zget (s_chans s) n = Some ch -> drawable s ch.
Proof.
  intros (_ & Hf & _ & Hc & _) E. destruct (Forall_zget _ _ _ _ Hc E) as (A & B & _ & C & D & _ & _ & L & _). unfold drawable. auto 8.
Qed.

Definition step_post (op : uop) (s s' : sys) (o : list event) : Prop :=
  match op with
  | UMsg m => calls_post (midi_of s') o (y_ui s) (y_ui s')
  | UFrame delta c log => exists u, calls_post (midi_of s') o (y_ui s) u /\
      frame_post (midi_of s') (synth_of s') delta (comm_mode mw c) c log u (y_ui s')
  end.
Theorem u_step_ok op s : alive s -> uop_ok op ->
  match u_step r mw op s with
  | Done _ s' o => alive s' /\ app_step r (heard op) (y_app s) = Done tt (y_app s') o /\ step_post op s s' o /\
      filter ui_ev o = reports (midi_of s) (message (heard op))
  | Fault _ => (exists f, app_step r (heard op) (y_app s) = Fault f) \/
      (exists a o delta c log, op = UFrame delta c log /\ app_step r AFrame (y_app s) = Done tt a o /\ off_keyboard (a_midi a))
  end.
Proof.
  intros A Ho. assert (A0 := A). destruct A0 as (Hi & Hu & C1 & C2). destruct (heard_ok op Ho) as [Oa On].
  destruct (app_step r (heard op) (y_app s)) as [[] a o|f] eqn:E.
  2:{ assert (X : u_step r mw op s = Fault f); [|rewrite X; left; exists f; reflexivity].
      destruct op; cbn [u_step heard] in *; [unfold on_app; rewrite E; reflexivity|]. unfold bind, on_app. rewrite E. reflexivity. }
  destruct (part_ok (heard op) s a o A Oa On E) as (u & E1 & P & Ia & Rp).
  assert (Cb : md_cb (a_midi a) = true /\ s_cb (v_synth (a_dev a)) = true).
  { destruct (app_step_ok r Hr (heard op) (y_app s) Hi Oa) as [(s1 & o1 & so & po & F1 & I1 & [C _] & S & _ & F & _ & cs & Em)|[[F1 _]|[F1 _]]];
      rewrite E in F1; try discriminate. apply done_inj in F1 as (_ & <- & <-). split.
    - rewrite <- C1. eapply ResetProofs.cb_step; [exact On| |apply Hi|exact Em]. destruct (heard op); [exact Oa|exact I].
    - rewrite <- C2.
      assert (NC : Forall (fun x => forall b, x <> SCallback b) so).
      { apply Forall_forall. intros x Hx b ->. destruct (F _ Hx) as (si & c & M & _ & _ & Hin).
        rewrite (ResetProofs.callback_call _ _ _ _ Hin) in M. exact (ResetProofs.callback_menu _ _ M). }
      clear -C NC. unfold synth_of. revert C. generalize (v_synth (a_dev (y_app s))) (v_synth (a_dev a)) (filter fm_event o).
      induction NC as [|x t Hx Ht IH]; intros b c l C.
      * injection C as <- _. reflexivity.
      * unfold synth_run in C. cbn [runM] in C. apply bind_inv in C as ([] & s1 & o1 & o2 & E1 & E2 & _).
        destruct (SynthNotifyProofs.nq_step x Hx _ _ _ E1) as [K _]. rewrite <- K. exact (IH _ _ _ E2). }
  destruct op as [m|delta c log]; cbn [u_step heard] in *.
  - rewrite E1. cbn [y_app]. split; [split; [exact Ia|split; [apply P|exact Cb]]|]. split; [reflexivity|]. split; [exact P|exact Rp].
  - unfold bind. rewrite E1. unfold on_ui. cbn [y_app y_ui].
    assert (Sy : synth_ok (v_synth (a_dev a))) by apply Ia.
    assert (W := update_wp (a_midi a) (v_synth (a_dev a)) delta (comm_mode mw c) c log u (proj1 P) (proj1 Ia)
      (fun n ch => drawable_all _ n ch Sy) (proj1 (proj2 (proj2 Sy))) Ho).
    unfold wp in W. destruct (update _ _ _ _ _ _ u) as [[] u' ou|].
    + rewrite app_nil_r. split; [split; [exact Ia|split; [apply W|exact Cb]]|]. split; [reflexivity|]. split; [|exact Rp]. exists u. auto.
    + right. exists a, o, delta, c, log. auto.
Qed.
End Step.

(** ** Invariants of histories *)
Lemma start_alive r mw hw mem s tr : watched r mw hw mem [] s tr -> alive r s.
Proof.
  intros H. split; [eapply watched_app; exact H|]. split; [|eapply watched_cb; exact H]. apply watched_nothing in H as (_ & (I & _) & _). exact I.
Qed.
Theorem watched_alive r mw hw mem ops s tr : watched r mw hw mem ops s tr -> alive r s.
Proof.
  intros H. assert (Hr : rom_ok r) by apply H. revert H. revert ops s tr. apply watched_ind.
  - intros s tr. apply start_alive.
  - intros ops op s tr s' o _ IH Ho E. assert (K := u_step_ok r Hr mw op s IH Ho). rewrite E in K. apply K.
Qed.
Lemma watched_step r mw hw mem ops op s tr : watched r mw hw mem (ops ++ [op]) s tr ->
  exists s1 tr1 o, watched r mw hw mem ops s1 tr1 /\ alive r s1 /\ alive r s /\ uop_ok op /\ tr = tr1 ++ o /\
    app_step r (heard op) (y_app s1) = Done tt (y_app s) o /\ step_post mw op s1 s o /\ filter ui_ev o = reports (midi_of s1) (message (heard op)).
Proof.
  intros H. assert (Hr : rom_ok r) by apply H. apply watched_inv in H as (s1 & o1 & o2 & H & Ho & E & ->). exists s1, o1, o2.
  assert (A := watched_alive _ _ _ _ _ _ _ H). assert (K := u_step_ok r Hr mw op s1 A Ho). rewrite E in K.
  destruct K as (K1 & K2 & K3 & K4). auto 10.
Qed.
