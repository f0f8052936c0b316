(** What a step of the interface reports to the screen. *)
From Verif Require Import Base BaseLemmas SynthModel SynthSpec SynthProofs PsgModel MidiModel MidiSpec MidiProofs MidiEqProofs MidiEffectProofs.
From Verif Require Import DevModel DevSpec DevProofs AppModel AppSpec AppProofs ResetProofs.
From Verif Require Import TwinProofs.
From Verif Require MidiCallProofs SynthNotifyProofs MidiOkProofs.

(** ** Parameters on the panel *)
Definition view (s : synth) (n : Z) : option (Z * Z * (Z * Z * Z * Z * Z * list operator)) :=
  option_map (fun c => (s_lfoen s, s_lfofreq s, (c_alg c, c_fb c, c_st c, c_ams c, c_fms c, c_ops c))) (zget (s_chans s) n).
(** One of the notifications concerns channel [n] or the LFO. *)
Definition told (n : Z) (l : list (Z * Z)) : Prop := exists c k, In (c, k) l /\ (c = n \/ k = 1).

Lemma view_other s c x n : c <> n -> view (set_ch s c x) n = view s n.
Proof. intros H. unfold view, set_ch. cbn. rewrite zget_zset_other by auto. reflexivity. Qed.
Lemma view_pitch s c o f n : synth_ok s -> is_ch c -> view (set_ch s c (ch_set_pitch (chn s c) o f)) n = view s n.
Proof.
  intros (_ & _ & L & _) Hc. destruct (Z.eq_dec c n) as [->|N]; [|apply view_other; exact N].
  unfold view, set_ch. cbn. rewrite zget_zset_same by (unfold is_ch in Hc; lia).
  destruct (zget_in_range (s_chans s) n) as [x Hx]; [unfold is_ch in Hc; lia|]. rewrite Hx. unfold chn.
  assert (E : nth (Z.to_nat n) (s_chans s) (chn s n) = x).
  { unfold zget in Hx. destruct (n <? 0); [discriminate|]. apply nth_error_nth. exact Hx. }
  unfold chn in E. rewrite (nth_indep _ _ (nth (Z.to_nat n) (s_chans s) (mkChan 0 0 0 0 0 0 0 []))) by (unfold is_ch in Hc; lia).
  unfold zget in Hx. destruct (n <? 0); [discriminate|]. rewrite (nth_error_nth _ _ _ Hx). reflexivity.
Qed.
Lemma opr_get s c o ch x : zget (s_chans s) c = Some ch -> zget (c_ops ch) o = Some x -> opr s c o = x.
Proof.
  intros H1 H2. unfold opr, chn. unfold zget in *. destruct (c <? 0); [discriminate|]. destruct (o <? 0); [discriminate|].
  rewrite (nth_error_nth _ _ _ H1). apply nth_error_nth. exact H2.
Qed.

Lemma post_view op s n : synth_ok s -> sop_ok op -> (forall p, op <> SInit p) -> told n (notify op s) \/ view (post op s) n = view s n.
Proof.
  intros Hs Ho Hi.
  assert (Chan : forall c, told n [(c, 0)] \/ c <> n).
  { intros c. destruct (Z.eq_dec c n) as [E|E]; [left|right; exact E]. exists c, 0. split; [left; reflexivity|auto]. }
  destruct op; cbn [notify post]; cbn [sop_ok] in Ho; try (right; reflexivity);
    try (destruct (Chan c) as [T|N]; [left; exact T|right; apply view_other; exact N]);
    try (left; exists 0, 1; split; [left; reflexivity|auto; fail]).
  - destruct (Hi p eq_refl).
  - right. apply view_pitch; [exact Hs|apply Ho].
  - right. destruct (vol s c =? v); reflexivity.
  - destruct (zget_in_range (s_chans s) c) as [ch Hch]; [destruct Hs as (_ & _ & L & _); destruct Ho as (Hc & _); unfold is_ch in Hc; lia|].
    rewrite Hch. assert (Hok : chan_ok ch) by (eapply Forall_zget; [apply Hs|exact Hch]).
    destruct (zget_in_range (c_ops ch) o) as [x Hx]; [destruct Ho as (_ & Hop & _); unfold is_op in Hop; unfold chan_ok in Hok; lia|].
    rewrite Hx, (opr_get _ _ _ _ _ Hch Hx). destruct (o_tl x =? v); [right; reflexivity|].
    destruct (Chan c) as [T|N]; [left; exact T|right; apply view_other; exact N].
Qed.
Lemma told_app n a b : told n a \/ told n b -> told n (a ++ b).
Proof. intros [(c & k & H & E)|(c & k & H & E)]; exists c, k; split; auto; apply in_or_app; auto. Qed.
Lemma run_view so n : forall s s' o, synth_ok s -> Forall sop_ok so -> Forall (fun x => (forall b, x <> SCallback b) /\ forall p, x <> SInit p) so ->
  s_cb s = true -> synth_run so s = Done tt s' o -> told n (notified o) \/ view s' n = view s n.
Proof.
  induction so as [|x so IH]; intros s s' o Hs Ho Hn Hcb E.
  - injection E as <- _. right. reflexivity.
  - unfold synth_run in E. cbn [runM] in E. apply bind_inv in E as ([] & s1 & o1 & o2 & E1 & E2 & ->).
    destruct (Forall_inv Hn) as [N1 N2]. destruct (SynthNotifyProofs.nq_step x N1 _ _ _ E1) as [K1 K2]. rewrite Hcb in K2.
    destruct (step_runs x s Hs (Forall_inv Ho)) as (o' & E' & _). assert (P : s1 = post x s) by (rewrite E1 in E'; injection E' as -> _; reflexivity).
    rewrite SynthNotifyProofs.notified_app.
    destruct (IH s1 s' o2) as [T|V]; [rewrite P; apply post_ok; [exact Hs|exact (Forall_inv Ho)]|exact (Forall_inv_tail Ho)|exact (Forall_inv_tail Hn)|congruence|exact E2| |].
    + left. apply told_app. right. exact T.
    + destruct (post_view x s n Hs (Forall_inv Ho) N2) as [T|V'].
      * left. apply told_app. left. rewrite K2. exact T.
      * right. rewrite V, P. exact V'.
Qed.

(** Only a reset initialises the synthesizer. *)
Lemma init_call r s c p : In (SInit p) (synth_calls r s c) -> c = DFmReset \/ c = DSynth (SInit p).
Proof.
  destruct c as [v n q ce vel|v n q|v n x|v n x|v n|v n x|v n q ce|n b'|op|e|prog q|prog|n prog|prog|mc n|data| | | | | |k mc key v|mc b'];
    try destruct v; cbn [synth_calls]; intros H; try contradiction;
    try (repeat destruct H as [H|H]; discriminate || contradiction).
  - destruct (DevSpec.playable q); [|contradiction]. destruct (f_perc _); cbn in H; repeat destruct H as [H|H]; discriminate || contradiction.
  - destruct H as [->|H]; [right; reflexivity|contradiction].
  - left. reflexivity.
Qed.
Lemma init_menu m p : m <> MReset -> ~ MidiCallProofs.menu m DFmReset /\ ~ MidiCallProofs.menu m (DSynth (SInit p)).
Proof.
  intros Hm. destruct m; cbn [MidiCallProofs.menu]; split; intros H; try contradiction;
    try (firstorder discriminate; fail).
  destruct H as [H|[(? & ? & ? & ? & H)|[(? & ? & H)|[(_ & ? & ? & H)|[(? & H & S & _)|[(_ & ? & H)|(_ & ? & H)]]]]]]; try discriminate; try contradiction.
  injection H as <-. exact S.
Qed.

Section Step.
Context (r : rom) (Hr : rom_ok r).

Theorem step_notifies op s s' o n : app_inv r s -> aop_ok op -> message op <> MReset -> s_cb (v_synth (a_dev s)) = true ->
  app_step r op s = Done tt s' o ->
  (exists c k, In (EvParam c k) o /\ (c = n \/ k = 1)) \/ view (v_synth (a_dev s')) n = view (v_synth (a_dev s)) n.
Proof.
  intros Hi Ho Hm Hcb E.
  destruct (app_step_ok r Hr op s Hi Ho) as [(s1 & o1 & so & po & E1 & I1 & [C _] & S & _ & F & _ & cs & Em)|[[E1 _]|[E1 _]]];
    rewrite E in E1; try discriminate. apply done_inj in E1 as (_ & <- & <-).
  assert (Hn : Forall (fun x => (forall b, x <> SCallback b) /\ forall p, x <> SInit p) so).
  { apply Forall_forall. intros x Hx. destruct (F _ Hx) as (si & c & M & _ & _ & Hin). split.
    + intros b ->. rewrite (callback_call _ _ _ _ Hin) in M. exact (callback_menu _ _ M).
    + intros p ->. destruct (init_menu (message op) p Hm) as [M1 M2]. destruct (init_call _ _ _ _ Hin) as [->| ->]; auto. }
  destruct (run_view so n _ _ _ (proj1 (proj1 (proj1 (proj2 Hi)))) S Hn Hcb C) as [(c & k & H1 & H2)|V]; [|right; exact V].
  - left. exists c, k. split; [|exact H2]. unfold notified in H1. apply in_flat_map in H1 as (e & H & H').
    destruct e; cbn in H'; try contradiction. destruct H' as [[= -> ->]|[]]. apply filter_In in H. apply H.
Qed.

(** ** Reports of messages *)
Definition ui_ev (e : event) : bool := match e with EvMidiChange _ _ _ _ | EvUi _ _ => true | _ => false end.
Definition ui_call (c : dcall) : list event :=
  match c with DChange k c key v => [EvMidiChange k c key v] | DUi c b => [EvUi c (b2z b)] | _ => [] end.
Lemma tx_ui l : filter ui_ev (map EvTx l) = [].
Proof. induction l; [reflexivity|assumption]. Qed.
Lemma other_ui s c : filter ui_ev (other_by r s c) = ui_call c.
Proof.
  destruct c; try destruct v; try reflexivity; cbn [other_by ui_call]; try apply tx_ui.
  destruct (zget _ _) as [[?|]|]; reflexivity.
Qed.
Lemma ui_other o : filter ui_ev o = filter ui_ev (filter other_event o).
Proof. induction o as [|e o IH]; [reflexivity|]. destruct e; cbn; rewrite ?IH; reflexivity. Qed.
Lemma ui_app a b : filter ui_ev (a ++ b) = filter ui_ev a ++ filter ui_ev b.
Proof. apply filter_app. Qed.
Lemma perform_all_ui det cs : forall a a' o, dev_inv a -> psg_good r (v_psg a) -> Forall dcall_ok cs -> (In DFmInit cs -> det = false) ->
  perform_all r det cs a = Done tt a' o -> filter ui_ev o = flat_map ui_call cs.
Proof.
  induction cs as [|c t IH]; intros a a' o I G Hc Hd E.
  - injection E as _ <-. reflexivity.
  - unfold perform_all in E. cbn [runM] in E. apply bind_inv in E as ([] & a1 & o1 & o2 & E1 & E2 & ->).
    assert (Hb : ~ beyond_samples c). { intros B. rewrite (perform_beyond r Hr det c a B) in E1. discriminate. }
    assert (Hd1 : c = DFmInit -> det = false) by (intros ->; apply Hd; left; reflexivity).
    destruct (perform_does r Hr det c a I G (Forall_inv Hc) Hd1 Hb) as (a2 & o3 & (E3 & _) & _ & I2 & G2).
    rewrite E1 in E3. injection E3 as <- <-.
    rewrite ui_app. cbn [flat_map]. f_equal.
    + rewrite ui_other, (perform_others r Hr det c a a1 o1 I (Forall_inv Hc) E1 Hd1). apply other_ui.
    + apply (IH a1 a' o2 I2 G2 (Forall_inv_tail Hc)); [intros H; apply Hd; right; exact H|exact E2].
Qed.

(** What the MIDI layer tells the screen about a message. *)
Definition reports (s : midi) (m : mop) : list event :=
  match m with
  | MCc c k v => (if (k =? 83) && negb (md_nogm s) then [EvUi c (b2z (64 <=? v))] else []) ++ [EvMidiChange 2 c k v]
  | MProgram c v => [EvMidiChange 1 c 0 v]
  | _ => []
  end.
Lemma no_ui_flat {A} (l : list A) f : (forall x, flat_map ui_call (f x) = []) -> flat_map ui_call (flat_map f l) = [].
Proof. intros H. induction l as [|x l IH]; [reflexivity|]. cbn. rewrite flat_map_app, H, IH. reflexivity. Qed.
Lemma no_ui_menu cs : Forall (fun c => ui_call c = []) cs -> flat_map ui_call cs = [].
Proof. induction 1 as [|c t H _ IH]; [reflexivity|]. cbn. rewrite H, IH. reflexivity. Qed.
Lemma voice_ui c : MidiCallProofs.voice_call c -> ui_call c = [].
Proof. destruct c; cbn; try contradiction; reflexivity. Qed.

Lemma range_two v : seven v -> negb (RANGE v 2 =? 0) = (64 <=? v).
Proof.
  unfold seven, RANGE. intros H. destruct (Z.leb_spec 64 v) as [K|K].
  - change (128 ÷ 2) with 64. rewrite Z.quot_div_nonneg by lia. replace (v / 64) with 1; [reflexivity|]. apply Z.div_unique with (r := v - 64); lia.
  - change (128 ÷ 2) with 64. rewrite Z.quot_small by lia. reflexivity.
Qed.
Lemma step_calls m s s' cs : midi_ok s -> mop_ok m -> ~ registers m -> md_cb s = true -> midi_step m s = WDone s' cs ->
  flat_map ui_call cs = reports s m.
Proof.
  intros Hs Ho Hn Hcb E. assert (Mn := MidiCallProofs.calls_menu m s _ _ E).
  assert (Cb : md_cb s' = true) by (rewrite <- Hcb; eapply cb_step; eassumption).
  destruct m as [c p v|c p|c k v|c v|c b|data| | |b]; cbn [reports];
    try (apply no_ui_menu; eapply Forall_impl; [|exact Mn]; intros x; cbn [MidiCallProofs.menu]; apply voice_ui).
  - (* a controller *)
    cbn [midi_step mop_ok] in *. destruct Ho as (Hc & Hk & Hv). destruct (ok_ch_get _ _ Hs Hc) as (m & Hm & _).
    destruct (midi_cc_result _ _ _ _ m _ _ Hs Hc Hv Hm E) as (o' & R & ->). rewrite Cb, flat_map_app. f_equal.
    destruct R as [m' Hf|Hk'|Hk'|Hk'|s1 Hk' E'|Hk'|s1 o1 Hk' E'|Hk' Hg|Hk' _|Hx|o1 Hk' Hx|Hx|devs o1 Hk' HH].
    + assert (~ (k = 83 /\ md_nogm s = false)).
      { intros [-> Hg]. unfold cc_field in Hf. cbn in Hf. rewrite ?Hg in Hf. discriminate. }
      replace ((k =? 83) && negb (md_nogm s)) with false; [reflexivity|]. destruct (Z.eqb_spec k 83); [|reflexivity].
      destruct (md_nogm s); [reflexivity|tauto].
    + subst k. apply no_ui_flat. intros d. unfold calls_at. repeat match goal with |- context [if ?b then _ else _] => destruct b end; reflexivity.
    + subst k. apply no_ui_flat. intros d. unfold calls_at. repeat match goal with |- context [if ?b then _ else _] => destruct b end; reflexivity.
    + replace (k =? 83) with false by lia. apply no_ui_flat. intros d. unfold calls_at. destruct (_ =? _); reflexivity.
    + subst k. reflexivity.
    + subst k. reflexivity.
    + subst k. rewrite (resetAll_eq _ _ Hs Hc) in E'. injection E' as _ <-. cbn [Z.eqb andb].
      assert (W : MidiCallProofs.wcalls MidiCallProofs.voice_call (resetAllControllers c s)) by MidiCallProofs.calls_go.
      specialize (W _ _ (resetAll_eq _ _ Hs Hc)). apply no_ui_menu. eapply Forall_impl; [apply voice_ui|exact W].
    + subst k. rewrite Hg. cbn. rewrite range_two by exact Hv. reflexivity.
    + replace (k =? 83) with false by lia. apply no_ui_flat. intros d. unfold calls_at. repeat match goal with |- context [if ?b then _ else _] => destruct b end; reflexivity.
    + destruct (Z.eqb_spec k 83); [|reflexivity]. assert (Ng : md_nogm s = true) by (destruct Hx as [([->| ->] & _)|[[->|[->|[->| ->]]]|(_ & H)]]; try discriminate; exact H). rewrite Ng. reflexivity.
    + subst k. destruct Hx as [->|(i & d & _ & _ & ->)]; reflexivity.
    + replace (k =? 83) with false by (cbn in Hx; lia). apply no_ui_flat. intros d. unfold calls_at. destruct (_ =? _); [|reflexivity].
      unfold fm_call. destruct (fm_parameter _ _ _ _); destruct (md_nogm s); reflexivity.
    + subst k. destruct HH as [[_ ->]|(_ & _ & _ & H & _)]; [reflexivity|]. apply no_ui_menu. eapply Forall_impl; [|exact H].
      intros x ->. reflexivity.
  - (* a program *)
    cbn [midi_step mop_ok] in *. destruct Ho as (Hc & _). destruct (ok_ch_get _ _ Hs Hc) as (m & Hm & _).
    rewrite (midi_program_eq _ _ _ m Hm), Hcb in E. injection E as _ <-. rewrite flat_map_app.
    rewrite no_ui_flat; [reflexivity|]. intros d. unfold calls_at. repeat match goal with |- context [if ?b then _ else _] => destruct b end; reflexivity.
  - (* system exclusive *)
    apply no_ui_menu. eapply Forall_impl; [|exact Mn]. intros x. cbn [MidiCallProofs.menu].
    intros [[_ H]|[(_ & ? & ->)|[(_ & ? & ->)|[(_ & ? & ? & ? & ->)|[(_ & ? & ? & ->)|[(_ & ? & ->)|[(_ & ? & ->)|(_ & ? & ? & ->)]]]]]]]; try reflexivity.
    apply voice_ui, H.
  - (* a reset *)
    apply no_ui_menu. eapply Forall_impl; [|exact Mn]. intros x. cbn [MidiCallProofs.menu]. intros [H|[->|[->| ->]]]; try reflexivity. apply voice_ui, H.
  - destruct Hn. exists b. reflexivity.
Qed.

Theorem step_reports op s s' o : app_inv r s -> aop_ok op -> ~ registers (message op) -> md_cb (a_midi s) = true ->
  app_step r op s = Done tt s' o -> filter ui_ev o = reports (a_midi s) (message op).
Proof.
  assert (Msg : forall m s s' o, app_inv r s -> mop_ok m -> ~ registers m -> md_cb (a_midi s) = true ->
    app_midi r (midi_step m) s = Done tt s' o -> filter ui_ev o = reports (a_midi s) m).
  { intros m t t' o1 (H1 & H2 & H3) Hm Hn Hcb E. unfold app_midi in E. assert (W := MidiOkProofs.midi_step_ok m (a_midi t) H1 Hm).
    assert (Mn := MidiCallProofs.calls_menu m (a_midi t)).
    destruct (midi_step m (a_midi t)) as [m1 cs|f] eqn:Em; [|discriminate]. cbn [MidiProofs.wpw] in W. destruct W as [Hcs _].
    destruct (perform_all r (detected t) cs (a_dev t)) as [[] d1 o2|f] eqn:Ep; [|discriminate]. injection E as _ <-.
    rewrite (perform_all_ui _ _ _ _ _ H2 H3 Hcs) with (2 := Ep).
    - eapply step_calls; eassumption.
    - intros Hin. specialize (Mn _ _ eq_refl). rewrite Forall_forall in Mn. destruct (menu_no_init _ _ (Mn _ Hin)) as [X _]. contradiction X. reflexivity. }
  intros Hi Ho Hn Hcb E. destruct op as [m|]; cbn [app_step aop_ok message] in *; [eapply Msg; eassumption|].
  destruct (frame_tick r Hr s Hi) as (s1 & o1 & E1 & I1 & [CS CP] & EM). apply bind_inv in E as ([] & s2 & o2 & o3 & E2 & E3 & ->).
  rewrite E1 in E2. injection E2 as <- <-. rewrite ui_app.
  assert (filter ui_ev o1 = []).
  { unfold app_dev, lift in E1. destruct (ps r PTick (a_dev s)) as [[] d o|] eqn:Ep; [|discriminate]. injection E1 as _ <-.
    rewrite ui_other. rewrite (filter_other_none _ _ _ _ _ (ps_emits r PTick) Ep). reflexivity. }
  rewrite H. cbn [Datatypes.app]. rewrite (Msg MTick s1 s' o3 I1 I); [reflexivity| |rewrite EM; exact Hcb|exact E3]. intros [b [=]].
Qed.
End Step.
