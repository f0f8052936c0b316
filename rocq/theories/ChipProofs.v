(** What one message writes to the chips. *)
From Verif Require Import Base BaseLemmas SynthModel SynthSpec SynthProofs SynthMirrorProofs SynthClaimsProofs.
From Verif Require Import MidiModel MidiSpec MidiProofs MidiOkProofs MidiEqProofs MidiEffectProofs MidiCallProofs MidiChanProofs MidiClaimsProofs.
From Verif Require Import PsgModel DevModel DevSpec DevProofs AppModel AppSpec AppProofs AppTraceProofs AppKeyProofs SoundSpec AppNoteProofs.
From Verif Require PsgSpec PsgProofs PsgRunProofs MidiHistProofs AppClaimsProofs LibraryProofs.

(** ** Writes of one call *)
Lemma synth_run_event ops : Forall sop_ok ops -> forall s s' o e, synth_ok s -> synth_run ops s = Done tt s' o -> In e o ->
  exists op si si' oi, In op ops /\ synth_ok si /\ synth_step op si = Done tt si' oi /\ In e oi.
Proof.
  induction 1 as [|op t Hop Ht IH]; intros s s' o e Hs E He; [injection E as <- <-; destruct He|].
  unfold synth_run in E. cbn [runM] in E. apply bind_inv in E as ([] & s1 & o1 & o2 & E1 & E2 & ->).
  apply in_app_or in He as [He|He].
  - exists op, s, s1, o1. split; [left; reflexivity|]. auto.
  - destruct (step_runs op s Hs Hop) as (o3 & E3 & _). rewrite E1 in E3. injection E3 as -> <-.
    destruct (IH _ _ _ e (post_ok op s Hs Hop) E2 He) as (x & si & si' & oi & H1 & H2 & H3 & H4).
    exists x, si, si', oi. split; [right; exact H1|]. auto.
Qed.

(** Calls that address no channel of the FM chip write registers of none. *)
Definition part_free (op : sop) : Prop :=
  match op with SEnableLfo _ | SLfoFrequency _ | SSpecialMode _ | SDac _ | SCallback _ | SSpecialPitch _ _ _ => True | _ => False end.
Lemma special_regs_eq n : 0 <= n < 3 -> u8 (0xAC + u8 ((n + 1) mod 3)) = fst (special_regs n) /\ u8 (0xA8 + u8 ((n + 1) mod 3)) = snd (special_regs n).
Proof. intros H. assert (C : n = 0 \/ n = 1 \/ n = 2) by lia. destruct C as [-> | [-> | ->]]; split; reflexivity. Qed.
Lemma special_no_owner n d : owner (fst (special_regs n)) d 0 = None /\ owner (snd (special_regs n)) d 0 = None.
Proof. unfold special_regs. destruct n as [|[]|]; split; reflexivity. Qed.
Lemma free_step op s s' o : part_free op -> synth_ok s -> sop_ok op -> synth_step op s = Done tt s' o ->
  forall p g d, In (EvYm p g d) o -> owner g d p = None.
Proof.
  intros Hf Hs Hop E p g d Hin. destruct (step_runs op s Hs Hop) as (o1 & E1 & W & _). rewrite E in E1. injection E1 as -> <-.
  apply in_ymw in Hin. rewrite W in Hin.
  destruct op; try contradiction; cbn in Hin;
    try (destruct Hin as [H|[]]; injection H as <- <- <-; reflexivity); try contradiction.
  cbn in Hop. destruct (special_regs_eq o0 (proj1 Hop)) as [R1 R2]. clear E W. change 172 with 0xAC in Hin. change 168 with 0xA8 in Hin. rewrite R1, R2 in Hin.
  destruct Hin as [H|[H|[]]]; injection H as <- <- <-; apply special_no_owner.
Qed.
Lemma special_step n oct f s s' o : synth_ok s -> sop_ok (SSpecialPitch n oct f) -> synth_step (SSpecialPitch n oct f) s = Done tt s' o ->
  forall p g d, In (EvYm p g d) o -> p = 0 /\ (g = fst (special_regs n) \/ g = snd (special_regs n)).
Proof.
  intros Hs Hop E p g d Hin. destruct (step_runs _ s Hs Hop) as (o1 & E1 & W & _). rewrite E in E1. injection E1 as -> <-.
  apply in_ymw in Hin. rewrite W in Hin. cbn [writes] in Hin. cbn in Hop. destruct (special_regs_eq n) as [R1 R2]; [lia|].
  rewrite R1, R2 in Hin. destruct Hin as [H|[H|[]]]; injection H as <- <- _; auto.
Qed.
Lemma chan_step op s s' o n : synth_ok s -> sop_ok op -> sop_chan op = Some n -> synth_step op s = Done tt s' o ->
  forall p g d, In (EvYm p g d) o -> owner g d p = Some n /\ forall x, sop_oper op = Some x -> owner_op g = Some x.
Proof.
  intros Hs Hop Hc E p g d Hin. destruct (c12_isolation op s n Hs Hop Hc) as (s1 & o1 & E1 & H1 & H2). rewrite E in E1. injection E1 as -> <-.
  split; [exact (H1 p g d Hin)|]. intros x Hx. exact (H2 x Hx p g d Hin).
Qed.

(** The PSG channel of a call. *)
Definition pop_chan (op : pop) : option Z :=
  match op with
  | PNoteOn c _ _ _ | PNoteOff c _ | PAllOff c | PVolume c _ | PProgram c _ | PPan c _ | PPitch c _ _ => Some c
  | _ => None
  end.

Section Psg.
Context (pal : bool) (envs : list (list Z)) (He : PsgSpec.envs_ok envs).
Notation good := (fun x => exists ue, PsgRunProofs.psg_inv envs ue x).

Lemma on_chan_events ue s c k (m : list Z -> bool -> M psgchan unit) s' o : PsgRunProofs.psg_inv envs ue s -> PsgSpec.is_psg c -> PsgProofs.cop_ok k ->
  (forall u up, m u up = PsgProofs.cfun pal envs u up k) -> on_chan c m s = Done tt s' o -> forall e, In e o -> of_psg c e.
Proof.
  intros [[HL HU] Hi] Hc Hk Hm E e Hin. unfold PsgSpec.is_psg in Hc.
  destruct (zget_in_range (ps_chans s) c) as [ch Hch]; [rewrite HL; lia|].
  destruct (Hi c ch Hch) as [Hn Hok]. unfold on_chan in E. rewrite Hch, Hm in E.
  rewrite (PsgProofs.cexec_eq pal envs He (ps_user s) (ps_userp s) ue HU k ch Hk Hok) in E. injection E as _ <-.
  destruct (PsgProofs.cexec_rel pal envs (ps_user s) (ps_userp s) k ch) as (_ & R & _).
  destruct (R e Hin) as [v [-> | ->]]; exact Hn.
Qed.
Lemma psg_step_events ue op s s' o c : PsgRunProofs.psg_inv envs ue s -> PsgSpec.pop_ok op -> pop_chan op = Some c ->
  psg_step pal envs op s = Done tt s' o -> forall e, In e o -> of_psg c e.
Proof.
  intros Hs Hop Hc E e Hin. assert (HL : length (ps_chans s) = 4%nat) by apply Hs.
  destruct op; try discriminate; injection Hc as ->; cbn [PsgSpec.pop_ok psg_step] in *.
  - unfold midi_psg_note_on in E. destruct (_ <? _); [injection E as <- <-; destruct Hin|].
    eapply (on_chan_events ue s c (PsgProofs.CNoteOn pitch cents vel)); [exact Hs|tauto|cbn; tauto|reflexivity|exact E|exact Hin].
  - eapply (on_chan_events ue s c PsgProofs.COff); [exact Hs|exact Hop|exact I|reflexivity|exact E|exact Hin].
  - unfold midi_psg_all_notes_off, bind, get, rd in E.
    destruct (zget_in_range (ps_chans s) c) as [ch Hch]; [rewrite HL; unfold PsgSpec.is_psg in Hop; lia|].
    rewrite Hch in E. cbn in E. unfold midi_psg_note_off in E.
    destruct (on_chan c (fun _ _ => chan_note_off) s) as [[] s1 o1|] eqn:E1; [|discriminate]. injection E as <- <-.
    eapply (on_chan_events ue s c PsgProofs.COff); [exact Hs|exact Hop|exact I|reflexivity|exact E1|exact Hin].
  - eapply (on_chan_events ue s c (PsgProofs.CVol v)); [exact Hs|tauto|cbn; tauto|reflexivity|exact E|exact Hin].
  - eapply (on_chan_events ue s c (PsgProofs.CProg p)); [exact Hs|tauto|cbn; tauto|reflexivity|exact E|exact Hin].
  - injection E as <- <-. destruct Hin.
  - eapply (on_chan_events ue s c (PsgProofs.CPitch pitch cents)); [exact Hs|tauto|cbn; tauto|reflexivity|exact E|exact Hin].
Qed.
Lemma psg_run_event ops : Forall PsgSpec.pop_ok ops -> forall s s' o e, good s -> psg_run pal envs ops s = Done tt s' o -> In e o ->
  exists op si si' oi, In op ops /\ good si /\ psg_step pal envs op si = Done tt si' oi /\ In e oi.
Proof.
  induction 1 as [|op t Hop Ht IH]; intros s s' o e [ue Hs] E Hin; [injection E as <- <-; destruct Hin|].
  unfold psg_run in E. cbn [runM] in E. apply bind_inv in E as ([] & s1 & o1 & o2 & E1 & E2 & ->).
  apply in_app_or in Hin as [Hin|Hin].
  - exists op, s, s1, o1. split; [left; reflexivity|]. split; [exists ue; exact Hs|]. auto.
  - destruct (PsgRunProofs.step_inv pal envs He ue op s Hs Hop) as (ue' & s2 & o3 & _ & E3 & I3). rewrite E1 in E3. injection E3 as <- _.
    destruct (IH _ _ _ e (ex_intro _ ue' I3) E2 Hin) as (x & si & si' & oi & H1 & H2 & H3 & H4).
    exists x, si, si', oi. split; [right; exact H1|]. auto.
Qed.
End Psg.

(** ** Writes of one message *)
Section Msg.
Context (r : rom).

(** Write [e] is made by synth.c call [op], or PSG call [op]. *)
Definition fm_by (op : sop) (p g d : Z) : Prop :=
  sop_ok op /\ exists si si' oi, synth_ok si /\ synth_step op si = Done tt si' oi /\ In (EvYm p g d) oi.
Lemma fm_by_chan op p g d n : fm_by op p g d -> sop_chan op = Some n -> owner g d p = Some n /\ forall x, sop_oper op = Some x -> owner_op g = Some x.
Proof. intros (Ho & si & si' & oi & H1 & H2 & H3) Hc. exact (chan_step op si si' oi n H1 Ho Hc H2 p g d H3). Qed.
Lemma fm_by_free op p g d : fm_by op p g d -> part_free op -> owner g d p = None.
Proof. intros (Ho & si & si' & oi & H1 & H2 & H3) Hc. exact (free_step op si si' oi Hc H1 Ho H2 p g d H3). Qed.
Lemma fm_by_special n oct f p g d : fm_by (SSpecialPitch n oct f) p g d -> p = 0 /\ (g = fst (special_regs n) \/ g = snd (special_regs n)).
Proof. intros (Ho & si & si' & oi & H1 & H2 & H3). exact (special_step n oct f si si' oi H1 Ho H2 p g d H3). Qed.

Lemma message_writes hw mem ops m s0 tr0 s o : history r hw mem ops s0 tr0 -> history r hw mem (ops ++ [AMsg m]) s (tr0 ++ o) ->
  midi_ok (a_midi s0) /\ mop_ok m /\ exists cs, steps (a_midi s0) m (a_midi s) cs /\ Forall (menu m) cs /\ Forall dcall_ok cs /\
    (forall p g d, In (EvYm p g d) o -> exists c si op, In c cs /\ In op (synth_calls r si c) /\ fm_by op p g d) /\
    (forall e n, In e o -> of_psg n e -> exists c op, In c cs /\ In op (psg_calls c) /\ (pop_chan op = Some n \/ pop_chan op = None)).
Proof.
  intros H0 H. destruct (history_played _ _ _ _ _ _ H0) as [(I1 & I2 & I3) _]. assert (Hr := proj1 H0).
  destruct (history_last _ _ _ _ _ _ _ _ _ H0 H) as (Hm & cs & Es & Ep). split; [exact I1|]. split; [exact Hm|].
  exists cs. split; [exact Es|].
  assert (Mn := calls_menu m (a_midi s0) _ _ Es). split; [exact Mn|].
  assert (W := midi_step_ok m (a_midi s0) I1 Hm). unfold steps in Es. rewrite Es in W. destruct W as [Hcs _]. split; [exact Hcs|].
  assert (Hn : In DFmInit cs -> detected s0 = false).
  { intros Hin. rewrite Forall_forall in Mn. destruct (menu_no_init _ _ (Mn _ Hin)) as [X _]. contradiction X. reflexivity. }
  assert (B : ~ Exists beyond_samples cs).
  { intros B. rewrite (perform_all_beyond r Hr _ cs _ I2 I3 Hcs Hn B) in Ep. discriminate. }
  destruct (perform_all_does r Hr (detected s0) cs _ I2 I3 Hcs Hn B) as (d & o1 & so & (D & DS & DP) & _ & _ & S & R).
  rewrite Ep in D. injection D as <- <-. split.
  - intros p g dd Hin.
    assert (Hf : In (EvYm p g dd) (filter fm_event o)) by (apply filter_In; auto).
    destruct (synth_run_event so S _ _ _ _ (proj1 (proj1 I2)) DS Hf) as (op & si & si' & oi & X1 & X2 & X3 & X4).
    destruct (R op X1) as (sd & c & Y1 & Y2 & Y3). exists c, sd, op. split; [exact Y1|]. split; [exact Y3|].
    split; [rewrite Forall_forall in S; apply S, X1|]. exists si, si', oi. auto.
  - intros e n Hin Hp. assert (He : PsgSpec.envs_ok (rom_envs r)) by apply Hr.
    assert (Hf : In e (filter psg_event o)) by (apply filter_In; split; [exact Hin|destruct e; try contradiction; reflexivity]).
    assert (P : Forall PsgSpec.pop_ok (flat_map psg_calls cs)).
    { apply Forall_flat_map. rewrite Forall_forall in Hcs |- *. intros c Hc. apply psg_calls_ok, Hcs, Hc. }
    destruct (psg_run_event _ _ He _ P _ _ _ _ I3 DP Hf) as (op & si & si' & oi & X1 & [ue X2] & X3 & X4).
    apply in_flat_map in X1 as (c & Y1 & Y2). exists c, op. split; [exact Y1|]. split; [exact Y2|].
    destruct (pop_chan op) as [k|] eqn:Ek; [|right; reflexivity]. left. f_equal. rewrite Forall_forall in P.
    assert (HZ := psg_step_events _ _ He ue op si si' oi k X2 (P op ltac:(apply in_flat_map; eauto)) Ek X3 e X4).
    destruct e; try contradiction; cbn in Hp, HZ; congruence.
Qed.
End Msg.

(** ** C36: everything a channel writes in static mode *)
Lemma without_remaps ops : without remaps ops -> Forall (fun op => ~ remaps op) (MCallback true :: map message ops).
Proof.
  intros W. constructor.
  - intros [(c & v & H)|[(a & H)|[(a & H)|(t & H)]]]; discriminate.
  - apply Forall_forall. intros m Hm. apply in_map_iff in Hm as ([x|] & <- & Hx); [exact (W x Hx)|].
    intros [(c & v & H)|[(a & H)|[(a & H)|(t & H)]]]; discriminate.
Qed.
Lemma voice_synth r si c w op : call_voice c = Some w -> In op (synth_calls r si c) ->
  (fst w = VFm /\ sop_chan op = Some (snd w)) \/
  (fst w = VSm /\ ((exists oct f, op = SSpecialPitch (snd w) oct f) \/ exists v, op = SSpecialVolume (snd w) v)).
Proof.
  intros Hw Hin.
  destruct c as [v n p ce vel|v n p|v n x|v n x|v n|v n x|v n p ce|n b|sop|e|prog p|prog|n prog|prog|mc n|data| | | | | |k mc key v|mc b];
    try discriminate; injection Hw as <-; destruct v; cbn [synth_calls] in Hin; try contradiction; cbn [fst snd].
  - left. split; [reflexivity|]. destruct (playable p); [|contradiction].
    apply in_app_or in Hin as [Hin|Hin]; [destruct (f_perc _); [|contradiction]|]; cbn in Hin;
      repeat (destruct Hin as [<-|Hin]; [reflexivity|]); contradiction.
  - right. split; [reflexivity|]. destruct Hin as [<-|[<-|[]]]; [left; eauto|right; eauto].
  - left. destruct Hin as [<-|[]]. auto.
  - left. destruct Hin as [<-|[]]. auto.
  - left. destruct Hin as [<-|[]]. auto.
  - left. destruct Hin as [<-|[]]. auto.
  - left. destruct Hin as [<-|[]]. auto.
  - left. destruct Hin as [<-|[]]. auto.
  - right. destruct Hin as [<-|[]]. eauto.
Qed.
Lemma voice_psg c w op : call_voice c = Some w -> In op (psg_calls c) -> fst w = VPsg /\ pop_chan op = Some (snd w).
Proof.
  intros Hw Hin.
  destruct c as [v n p ce vel|v n p|v n x|v n x|v n|v n x|v n p ce|n b|sop|e|prog p|prog|n prog|prog|mc n|data| | | | | |k mc key v|mc b];
    try discriminate; injection Hw as <-; destruct v; cbn [psg_calls] in Hin; try contradiction; destruct Hin as [<-|[]]; auto.
Qed.

Theorem static_sound r hw mem ops m s0 tr0 s o c : history r hw mem ops s0 tr0 -> history r hw mem (ops ++ [AMsg m]) s (tr0 ++ o) ->
  without remaps ops -> note_or_setting c m -> forall e, In e o -> own_sound c e.
Proof.
  intros H0 H W Hn e He. destruct (message_writes r hw mem ops m s0 tr0 s o H0 H) as (_ & Hm & cs & Es & Mn & Hcs & Fm & Ps).
  destruct (history_played _ _ _ _ _ _ H0) as [_ (cs0 & Hb & _)].
  destruct (c36 _ _ _ _ _ _ c (without_remaps ops W) Hb Hm Hn Es) as (V & N & _ & _).
  assert (Q : forall x, In x cs -> call_voice x = None -> psg_calls x = [] /\ forall si, synth_calls r si x = []).
  { intros x Hx Hv. destruct (N x Hx Hv) as [(n & -> & _)|(t & a & b & ->)]; split; reflexivity. }
  destruct e; try exact Logic.I.
  - destruct (Fm _ _ _ He) as (x & si & op & Hx & Hop & By). destruct (call_voice x) as [w|] eqn:Ew.
    2:{ destruct (Q x Hx Ew) as [_ Q2]. rewrite Q2 in Hop. destruct Hop. }
    assert (Sv := V x w Hx Ew). cbn [own_sound of_fm].
    destruct (voice_synth r si x w op Ew Hop) as [[Hw Hc]|[Hw Hc]].
    + left. destruct (fm_by_chan _ _ _ _ _ By Hc) as [Ho _].
      destruct Sv as [[Hr ->]|[[_ ->]|[[_ ->]|[_ ->]]]]; try discriminate. split; [exact Hr|exact Ho].
    + right. destruct Sv as [[_ ->]|[[_ ->]|[[_ ->]|[Hr ->]]]]; try discriminate. split; [exact Hr|]. cbn [snd] in Hc.
      destruct Hc as [(oct & f & ->)|(v & ->)].
      * right. apply (fm_by_special _ _ _ _ _ _ By).
      * left. destruct (fm_by_chan _ _ _ _ 2 By eq_refl) as [Ho Hop2]. split; [exact Ho|apply Hop2; reflexivity].
  - destruct (Ps _ chan He eq_refl) as (x & op & Hx & Hop & Hc). destruct (call_voice x) as [w|] eqn:Ew.
    2:{ destruct (Q x Hx Ew) as [Q1 _]. rewrite Q1 in Hop. destruct Hop. }
    assert (Sv := V x w Hx Ew). destruct (voice_psg x w op Ew Hop) as [Hw Hk]. rewrite Hk in Hc. destruct Hc as [Hc|]; [|discriminate]. injection Hc as Hc.
    destruct Sv as [[_ ->]|[[_ ->]|[[Hr ->]|[_ ->]]]]; try discriminate. cbn in Hc |- *. split; [exact Hr|congruence].
  - destruct (Ps _ chan He eq_refl) as (x & op & Hx & Hop & Hc). destruct (call_voice x) as [w|] eqn:Ew.
    2:{ destruct (Q x Hx Ew) as [Q1 _]. rewrite Q1 in Hop. destruct Hop. }
    assert (Sv := V x w Hx Ew). destruct (voice_psg x w op Ew Hop) as [Hw Hk]. rewrite Hk in Hc. destruct Hc as [Hc|]; [|discriminate]. injection Hc as Hc.
    destruct Sv as [[_ ->]|[[_ ->]|[[Hr ->]|[_ ->]]]]; try discriminate. cbn in Hc |- *. split; [exact Hr|congruence].
Qed.

(** ** C38: the channels serving other MIDI channels *)
Lemma fm_controls_any k n x op : fm_controls k n x = Some op -> is_fm_controller k.
Proof.
  unfold is_fm_controller, fm_controls. cbv zeta.
  repeat match goal with |- context [if ?b then _ else _] => destruct b; [intros _; discriminate|] end. discriminate.
Qed.
Lemma num_fm s i d n : midi_ok s -> dev_at s i d -> d_ops d = VFm -> d_num d = n -> i = n.
Proof.
  intros Hs Hd Ho Hn. assert (Hk : shape_ok i d) by apply Hs, Hd. destruct Hk as (K1 & K2 & K3).
  destruct (Z_lt_le_dec i 6) as [Hi|Hi]; [destruct (K1 Hi); congruence|].
  destruct (Z_lt_le_dec i 10) as [Hj|Hj]; [destruct (K2 ltac:(lia)); congruence|destruct (K3 Hj); congruence].
Qed.
Lemma num_psg s i d n : midi_ok s -> dev_at s i d -> d_ops d = VPsg -> d_num d = n -> i = 6 + n.
Proof.
  intros Hs Hd Ho Hn. assert (Hk : shape_ok i d) by apply Hs, Hd. destruct Hk as (K1 & K2 & K3).
  destruct (Z_lt_le_dec i 6) as [Hi|Hi]; [destruct (K1 Hi) as [_ [|[_ ?]]]; congruence|].
  destruct (Z_lt_le_dec i 10) as [Hj|Hj]; [destruct (K2 ltac:(lia)); lia|destruct (K3 Hj); congruence].
Qed.
Lemma num_sm s i d : midi_ok s -> dev_at s i d -> d_ops d = VSm -> 10 <= i.
Proof.
  intros Hs Hd Ho. assert (Hk : shape_ok i d) by apply Hs, Hd. destruct Hk as (K1 & K2 & K3).
  destruct (Z_lt_le_dec i 6) as [Hi|Hi]; [destruct (K1 Hi) as [_ [|[_ ?]]]; congruence|].
  destruct (Z_lt_le_dec i 10) as [Hj|Hj]; [destruct (K2 ltac:(lia)); congruence|exact Hj].
Qed.

Theorem others_fm r hw mem ops m s0 tr0 s o a n d : history r hw mem ops s0 tr0 -> history r hw mem (ops ++ [AMsg m]) s (tr0 ++ o) -> on_channel m = Some a -> ~ reassigning m ->
  0 <= n < 6 -> dev_at (a_midi s0) n d -> ~ open_to (a_midi s0) m a n d ->
  ((exists k v, m = MCc a k v /\ is_fm_controller k) -> forall j e, serves (a_midi s0) a j e -> j < 6) ->
  (n = 2 -> forall j e, serves (a_midi s0) a j e -> j < 10) ->
  forall e, In e o -> ~ of_fm n e.
Proof.
  intros H0 H Ha Hn Hr Hd Hop Hfm Hsm e He Hof. destruct e; try contradiction. cbn in Hof.
  destruct (message_writes r hw mem ops m s0 tr0 s o H0 H) as (Hs & Hm & cs & Es & Mn & Hcs & Fm & _).
  destruct (other_devices m _ _ cs a Hs Hm Ha Hn Es) as [_ R]. rewrite Forall_forall in R, Mn.
  destruct (Fm _ _ _ He) as (x & si & op & Hx & Hop' & By). destruct (R x Hx) as (R1 & R2 & _).
  destruct (call_voice x) as [w|] eqn:Ew.
  - destruct (R1 w eq_refl) as (i & e & Hi & Oi & ->).
    destruct (voice_synth r si x _ op Ew Hop') as [[Hw Hc]|[Hw Hc]]; cbn [fst snd] in *.
    + destruct (fm_by_chan _ _ _ _ _ By Hc) as [Ho _]. rewrite Hof in Ho. injection Ho as Ho.
      assert (i = n) by (apply (num_fm _ _ _ n Hs Hi Hw); congruence). subst i. unfold dev_at in Hi, Hd. rewrite Hd in Hi. injection Hi as <-. contradiction.
    + assert (Hi10 := num_sm _ _ _ Hs Hi Hw). destruct Hc as [(oct & f & ->)|(v & ->)].
      * rewrite (fm_by_free _ _ _ _ By Logic.I) in Hof. discriminate.
      * destruct (fm_by_chan _ _ _ _ 2 By eq_refl) as [Ho _]. rewrite Hof in Ho. injection Ho as Ho.
        destruct Oi as [Oi|(_ & _ & _ & Oi)]; [|lia]. specialize (Hsm Ho i e (conj Hi Oi)). lia.
  - specialize (Mn x Hx).
    assert (Hno : forall c, voice_call c -> call_voice c = None -> forall si, synth_calls r si c = []).
    { intros c Hv Hc si'. destruct c; try contradiction; try discriminate; reflexivity. }
    destruct m as [c p v|c p|c k v|c p|c b|sx| | |cb]; try discriminate; cbn [menu] in Mn; injection Ha as ->.
    + rewrite (Hno _ Mn Ew) in Hop'. destruct Hop'.
    + rewrite (Hno _ Mn Ew) in Hop'. destruct Hop'.
    + destruct Mn as [Mn|[(t & b & y & z & ->)|[(b & y & ->)|[(_ & y & z & ->)|[(f & -> & Hset & a' & y & Hf)|[(-> & _)|(_ & b & ->)]]]]]].
      * rewrite (Hno _ Mn Ew) in Hop'. destruct Hop'.
      * destruct Hop'.
      * destruct Hop'.
      * destruct Hop'.
      * destruct Hop' as [<-|[]]. destruct (sop_chan f) as [q|] eqn:Eq.
        -- destruct (fm_by_chan _ _ _ _ _ By Eq) as [Ho _]. rewrite Hof in Ho. injection Ho as <-.
           destruct (R2 f n eq_refl Eq) as (j & e & Hj & Hq).
           assert (J6 : j < 6) by (apply (Hfm (ex_intro _ k (ex_intro _ v (conj eq_refl (fm_controls_any _ _ _ _ Hf)))) j e Hj)).
           destruct Hj as [Hj Hm']. assert (Hk : shape_ok j e) by apply Hs, Hj. destruct Hk as (K1 & _). destruct (K1 J6) as [K _].
           assert (Ej : j = n) by congruence. rewrite Ej in Hj. unfold dev_at in Hj, Hd. rewrite Hd in Hj. injection Hj as <-. apply Hop. left. exact Hm'.
        -- rewrite (fm_by_free _ _ _ _ By) in Hof; [discriminate|]. destruct f; cbn in Hset, Eq; try contradiction; try discriminate; exact Logic.I.
      * apply Hn. right. right. exists a, v. reflexivity.
      * destruct Hop' as [<-|[]]. rewrite (fm_by_free _ _ _ _ By Logic.I) in Hof. discriminate.
    + destruct Mn as [Mn|(k & b & y & z & ->)]; [rewrite (Hno _ Mn Ew) in Hop'; destruct Hop'|destruct Hop'].
    + rewrite (Hno _ Mn Ew) in Hop'. destruct Hop'.
Qed.

Theorem others_psg r hw mem ops m s0 tr0 s o a n d : history r hw mem ops s0 tr0 -> history r hw mem (ops ++ [AMsg m]) s (tr0 ++ o) -> on_channel m = Some a -> ~ reassigning m ->
  0 <= n < 4 -> dev_at (a_midi s0) (6 + n) d -> ~ open_to (a_midi s0) m a (6 + n) d ->
  forall e, In e o -> ~ of_psg n e.
Proof.
  intros H0 H Ha Hn Hr Hd Hop e He Hof.
  destruct (message_writes r hw mem ops m s0 tr0 s o H0 H) as (Hs & Hm & cs & Es & Mn & Hcs & _ & Ps).
  destruct (other_devices m _ _ cs a Hs Hm Ha Hn Es) as [_ R]. rewrite Forall_forall in R, Mn.
  destruct (Ps _ n He Hof) as (x & op & Hx & Hop' & Hc). destruct (R x Hx) as (R1 & _ & _).
  destruct (call_voice x) as [w|] eqn:Ew.
  - destruct (R1 w eq_refl) as (i & d' & Hi & Oi & ->). destruct (voice_psg x _ op Ew Hop') as [Hw Hk]. cbn [fst snd] in *.
    rewrite Hk in Hc. destruct Hc as [Hc|]; [|discriminate]. injection Hc as Hc.
    assert (i = 6 + n) by (apply (num_psg _ _ _ n Hs Hi Hw Hc)). subst i. unfold dev_at in Hi, Hd. rewrite Hd in Hi. injection Hi as <-. contradiction.
  - specialize (Mn x Hx).
    assert (Hno : forall c, voice_call c -> call_voice c = None -> psg_calls c = []).
    { intros c Hv Hv'. destruct c; try contradiction; try discriminate; reflexivity. }
    destruct m as [c p v|c p|c k v|c p|c b|sx| | |cb]; try discriminate; cbn [menu] in Mn; injection Ha as ->.
    + rewrite (Hno _ Mn Ew) in Hop'. destruct Hop'.
    + rewrite (Hno _ Mn Ew) in Hop'. destruct Hop'.
    + destruct Mn as [Mn|[(t & b & y & z & ->)|[(b & y & ->)|[(_ & y & z & ->)|[(f & -> & _)|[(_ & b & ->)|(_ & b & ->)]]]]]];
        try destruct Hop'; rewrite (Hno _ Mn Ew) in Hop'; destruct Hop'.
    + destruct Mn as [Mn|(k & b & y & z & ->)]; [rewrite (Hno _ Mn Ew) in Hop'; destruct Hop'|destruct Hop'].
    + rewrite (Hno _ Mn Ew) in Hop'. destruct Hop'.
Qed.

(** ** C30, C33: released keys at the chip *)
Theorem released_at_chip r hw mem ops c p s tr n : history r hw mem (ops ++ [AMsg (MNoteOff c p)]) s tr -> 0 <= n < 6 ->
  without raw_write ops -> without (is_cc 121) ops -> without (is_cc 78) ops -> without (is_cc 65) ops ->
  without remapping ops \/ without gm_reset_msg ops ->
  exists b d, key_state tr n = Some b /\ dev_at (a_midi s) n d /\
    (b = true -> d_on d = true /\ ~ (d_midi d = c /\ note_of d = p)).
Proof.
  intros H Hn W1 W2 W3 W4 W5.
  assert (Q : forall P : mop -> Prop, without P ops -> ~ P (MNoteOff c p) -> without P (ops ++ [AMsg (MNoteOff c p)])).
  { intros P W N m Hm. apply in_app_or in Hm as [Hm|[Hm|[]]]; [exact (W m Hm)|]. injection Hm as <-. exact N. }
  destruct (LibraryProofs.history_prefix _ _ _ _ _ _ _ H) as (s0 & tr0 & o & H0 & _ & _ & ->).
  destruct (message_writes r hw mem ops _ s0 tr0 s o H0 H) as (_ & Hm & cs & Es & _).
  destruct (history_played _ _ _ _ _ _ H0) as [_ (cs0 & Hb & _)].
  assert (Hf : Forall (fun op => ~ is_cc 65 op) (MCallback true :: map message ops)).
  { constructor; [intros (x & v & [=])|]. apply Forall_forall. intros m Hin. apply in_map_iff in Hin as ([x|] & <- & Hx); [exact (W4 x Hx)|intros (y & v & [=])]. }
  assert (S := MidiHistProofs.note_off_history _ _ _ c p _ _ Hf Hb (proj1 Hm) Es).
  destruct (c31_keys r hw mem _ s (tr0 ++ o) n H Hn) as (b & e & K & He & Hon); [apply Q; [exact W1|]|apply Q; [exact W2|]|apply Q; [exact W3|]|..].
  - intros [(x & [=])|(x & [=])].
  - intros (x & v & [=]).
  - intros (x & v & [=]).
  - destruct W5 as [W5|W5]; [left|right]; apply Q; try exact W5; [|intros (t & [=])].
    intros [(x & v & [=])|[(x & v & [=])|[(l & [=])|(l & [=])]]].
  - exists b, e. split; [exact K|]. split; [exact He|]. intros Hb'. split; [exact (Hon Hb')|]. intros [Hc Hp]. apply S. exists n, e. repeat split; auto.
Qed.
(** C42 at the chip: a keyed FM channel plays a key that is held. *)
Theorem held_at_chip r hw mem ops s tr n : history r hw mem ops s tr -> 0 <= n < 6 ->
  without raw_write ops -> without (is_cc 78) ops -> without (is_cc 65) ops -> without remapping ops ->
  key_state tr n = Some true -> exists d, dev_at (a_midi s) n d /\ d_on d = true /\ In (d_midi d, note_of d) (held (map message ops)).
Proof.
  intros H Hn W1 W2 W3 W4 Hk.
  destruct (c31_keys r hw mem ops s tr n H Hn W1) as (b & d & K & Hd & Hon).
  - intros m Hm Hc. apply (W4 m Hm). right; left; exact Hc.
  - exact W2.
  - left; exact W4.
  - rewrite Hk in K. injection K as <-. specialize (Hon eq_refl). exists d. split; [exact Hd|]. split; [exact Hon|].
    destruct (history_played _ _ _ _ _ _ H) as (_ & cs & B & _).
    refine (MidiHistProofs.no_hung_notes (MCallback true :: map message ops) (a_midi s) cs _ B n d Hd Hon).
    constructor.
    + split; [intros (c & v & [=])|intros [(c & v & [=])|[(c & v & [=])|[(l & [=])|(l & [=])]]]].
    + apply Forall_forall. intros m Hin. apply AppClaimsProofs.in_message in Hin as [Hin| ->]; [split; [exact (W3 m Hin)|exact (W4 m Hin)]|].
      split; [intros (c & v & [=])|intros [(c & v & [=])|[(c & v & [=])|[(l & [=])|(l & [=])]]]].
Qed.
Theorem panic_at_chip r hw mem ops c k v s tr n d : k = 123 \/ k = 120 -> history r hw mem (ops ++ [AMsg (MCc c k v)]) s tr -> 0 <= n < 6 ->
  without raw_write ops -> without (is_cc 121) ops -> without (is_cc 78) ops ->
  without remapping ops \/ without gm_reset_msg ops ->
  dev_at (a_midi s) n d -> d_midi d = c -> key_state tr n = Some false.
Proof.
  intros Hk H Hn W1 W2 W3 W5 Hd Hc.
  assert (Q : forall P : mop -> Prop, without P ops -> ~ P (MCc c k v) -> without P (ops ++ [AMsg (MCc c k v)])).
  { intros P W N m Hm. apply in_app_or in Hm as [Hm|[Hm|[]]]; [exact (W m Hm)|]. injection Hm as <-. exact N. }
  destruct (LibraryProofs.history_prefix _ _ _ _ _ _ _ H) as (s0 & tr0 & o & H0 & _ & _ & ->).
  destruct (message_writes r hw mem ops _ s0 tr0 s o H0 H) as (_ & Hm & cs & Es & _).
  destruct (c33 _ _ _ _ _ _ Hk Es) as (S & _).
  destruct (c31_keys r hw mem _ s (tr0 ++ o) n H Hn) as ([|] & e & K & He & Hon); [apply Q; [exact W1|]|apply Q; [exact W2|]|apply Q; [exact W3|]|..].
  - intros [(x & [=])|(x & [=])].
  - intros (x & w & E). injection E as _ E _. lia.
  - intros (x & w & E). injection E as _ E _. lia.
  - destruct W5 as [W5|W5]; [left|right]; apply Q; try exact W5; [|intros (t & [=])].
    intros [(x & w & E)|[(x & w & E)|[(l & [=])|(l & [=])]]]; injection E as _ E _; lia.
  - exfalso. apply (S (note_of d)). unfold dev_at in He, Hd. rewrite Hd in He. injection He as <-. exists n, d. repeat split; auto.
  - exact K.
Qed.
