(** Editing sounds: from the controller or the raw write to the registers of the chip. *)
From Verif Require Import Base BaseLemmas SynthModel SynthSpec SynthProofs SynthMirrorProofs SynthClaimsProofs.
From Verif Require Import MidiModel MidiSpec MidiProofs MidiOkProofs MidiEqProofs MidiEffectProofs MidiCallProofs MidiDevProofs MidiNoteProofs MidiChanProofs MidiTuneProofs MidiSysexProofs MidiStaticProofs.
From Verif Require Import PsgModel DevModel DevSpec DevProofs AppModel AppSpec AppProofs AppTraceProofs AppClaimsProofs SoundSpec AppNoteProofs SongPlayProofs EditSpec.

(** ** Messages that only call synth.c *)
Definition synth_or_change (c : dcall) : Prop := match c with DSynth _ | DChange _ _ _ _ => True | _ => False end.
Definition sops (c : dcall) : list sop := match c with DSynth op => [op] | _ => [] end.
Definition changes (c : dcall) : list event := match c with DChange a b e d => [EvMidiChange a b e d] | _ => [] end.
Lemma synth_only r (Hr : rom_ok r) det cs : forall s, dev_inv s -> psg_good r (v_psg s) -> Forall dcall_ok cs -> Forall synth_or_change cs ->
  exists s' o, perform_all r det cs s = Done tt s' o /\ synth_run (flat_map sops cs) (v_synth s) = Done tt (v_synth s') (filter fm_event o) /\
    filter psg_event o = [] /\ v_psg s' = v_psg s /\ filter other_event o = flat_map changes cs.
Proof.
  induction cs as [|c t IH]; intros s Hi Hg Hc Hq.
  - exists s, []. repeat split; reflexivity.
  - assert (Hc1 := Forall_inv Hc). assert (Hq1 := Forall_inv Hq).
    assert (Nf : c <> DFmInit) by (intros ->; destruct Hq1).
    assert (Nb : ~ beyond_samples c) by (intros (n & p & ce & v & -> & _); destruct Hq1).
    destruct (perform_does r Hr det c s Hi Hg Hc1 ltac:(intros; contradiction) Nb) as (s1 & o1 & (E1 & S1 & P1) & _ & I1 & G1).
    destruct (IH s1 I1 G1 (Forall_inv_tail Hc) (Forall_inv_tail Hq)) as (s2 & o2 & E2 & S2 & P2 & Q2 & X2).
    exists s2, (o1 ++ o2). unfold perform_all. cbn [runM]. unfold bind. rewrite E1. fold (perform_all r det t). rewrite E2.
    split; [reflexivity|]. rewrite !filter_app.
    assert (K : synth_calls r s c = sops c /\ psg_calls c = [] /\ other_by r s c = changes c) by (destruct c; try contradiction Hq1; repeat split; reflexivity).
    destruct K as (K1 & K2 & K3). rewrite K1 in S1. rewrite K2 in P1. cbn in P1. injection P1 as P1 P3.
    split; [|split; [|split]].
    + cbn [flat_map]. unfold synth_run in *. rewrite runM_app. unfold bind. rewrite S1, S2. reflexivity.
    + rewrite <- P3, P2. reflexivity.
    + congruence.
    + cbn [flat_map]. rewrite X2. f_equal. rewrite <- K3. eapply perform_others; [exact Hr|exact Hi|exact Hc1|exact E1|intros; contradiction].
Qed.

(** A message whose calls all go to synth.c, performed after any history. *)
Lemma edit_performed r hw mem ops m s0 tr0 s' cs : history r hw mem ops s0 tr0 -> mop_ok m -> steps (a_midi s0) m s' cs -> Forall synth_or_change cs ->
  exists s o, history r hw mem (ops ++ [AMsg m]) s (tr0 ++ o) /\ a_midi s = s' /\
    synth_run (flat_map sops cs) (v_synth (a_dev s0)) = Done tt (v_synth (a_dev s)) (filter fm_event o) /\
    filter psg_event o = [] /\ filter other_event o = flat_map changes cs /\ Forall dcall_ok cs.
Proof.
  intros H Hm St Q. destruct (history_played _ _ _ _ _ _ H) as ((Hs & Hi & Hg) & _). assert (Hr := proj1 H).
  assert (Hc := proj2 (step_ok _ _ _ _ Hs Hm St)).
  destruct (synth_only r Hr (detected s0) cs _ Hi Hg Hc Q) as (d & o & E & S & P & _ & X).
  exists (mkApp s' d (a_x7 s0) (a_pro s0)), o. split; [|auto 8].
  apply (history_snoc _ _ _ _ (AMsg m) _ _ _ _ H Hm). cbn [app_step]. unfold app_midi, steps in *. rewrite St, E. reflexivity.
Qed.

Lemma ymw_writes o : ymw o = ym_writes o.
Proof. induction o as [|[] t IH]; cbn; rewrite ?IH; reflexivity. Qed.
Lemma ym_writes_fm o : ym_writes o = ym_writes (filter fm_event o).
Proof. unfold ym_writes. induction o as [|[] t IH]; cbn [filter fm_event flat_map Datatypes.app]; rewrite <- ?IH; reflexivity. Qed.
Lemma split_events o : filter psg_event o = [] -> filter other_event o = [] -> Forall (fun e => fm_event e = true) o.
Proof.
  induction o as [|e t IH]; intros P X; [constructor|]. cbn [filter] in P, X. unfold other_event in X at 1.
  destruct (psg_event e); [discriminate|]. destruct (fm_event e) eqn:E; cbn [negb orb] in X; [|discriminate]. constructor; auto.
Qed.

(** ** C99: raw register writes *)
Lemma nibbles_byte x : 0 <= x < 256 -> nibble (x / 16) /\ nibble (x mod 16) /\ u8 (Z.lor (Z.shiftl (x / 16) 4) (x mod 16)) = x.
Proof.
  intros H. split; [unfold nibble; lia|]. split; [unfold nibble; lia|]. apply nibble_pair. exact H.
Qed.
Lemma raw_steps s part reg data : part = 0 \/ part = 1 -> 0 <= reg < 256 -> 0 <= data < 256 ->
  steps s (raw_message part reg data) s [DSynth (SDirect part reg data)].
Proof.
  intros Hp H1 H2. destruct (nibbles_byte reg H1) as (_ & _ & N1). destruct (nibbles_byte data H2) as (_ & _ & N2).
  assert (E : forall a b c d, steps s (MSysex [0; 34; 119; 8 + part; a; b; c; d]) s [DSynth (SDirect part (u8 (Z.lor (Z.shiftl a 4) b)) (u8 (Z.lor (Z.shiftl c 4) d)))]).
  { intros a b c d. destruct Hp as [-> | ->]; reflexivity. }
  unfold raw_message, own_sysex. cbn [Datatypes.app]. specialize (E (reg / 16) (reg mod 16) (data / 16) (data mod 16)). rewrite N1, N2 in E. exact E.
Qed.
Lemma raw_ok part reg data : part = 0 \/ part = 1 -> 0 <= reg < 256 -> 0 <= data < 256 -> mop_ok (raw_message part reg data).
Proof.
  intros Hp H1 H2. unfold raw_message, own_sysex. cbn [mop_ok Datatypes.app length]. split; [|lia].
  repeat apply Forall_cons; try apply Forall_nil; unfold MidiSpec.seven; lia.
Qed.
Theorem raw_writes r hw mem ops s0 tr0 part reg data : history r hw mem ops s0 tr0 -> part = 0 \/ part = 1 -> 0 <= reg < 256 -> 0 <= data < 256 ->
  exists s o, history r hw mem (ops ++ [AMsg (raw_message part reg data)]) s (tr0 ++ o) /\
    ym_writes o = [(part, reg, data)] /\ Forall (fun e => fm_event e = true) o /\
    a_midi s = a_midi s0 /\ v_synth (a_dev s) = v_synth (a_dev s0).
Proof.
  intros H Hp H1 H2.
  destruct (edit_performed _ _ _ _ _ _ _ _ _ H (raw_ok part reg data Hp H1 H2) (raw_steps _ part reg data Hp H1 H2)) as (s & o & Hh & Em & S & P & X & C).
  { repeat constructor. }
  exists s, o. split; [exact Hh|]. destruct (history_played _ _ _ _ _ _ H) as ((_ & (Hs & _) & _) & _).
  cbn [flat_map sops changes Datatypes.app] in S, X. unfold synth_run in S. cbn [runM] in S. apply bind_inv in S as ([] & s1 & o1 & o2 & S1 & S2 & E).
  injection S2 as S2 <-. rewrite app_nil_r in E.
  destruct (step_runs (SDirect part reg data) (v_synth (a_dev s0)) (proj1 Hs) ltac:(cbn; unfold is_u8; lia)) as (o3 & R1 & R2 & _).
  rewrite S1 in R1. injection R1 as R1 <-. split; [rewrite ym_writes_fm, E, <- ymw_writes; exact R2|].
  split; [apply split_events; assumption|]. split; [exact Em|]. rewrite <- S2, R1. reflexivity.
Qed.
(** Any other number of bytes: nothing happens. *)
Lemma raw_length_steps s k args : k = 8 \/ k = 9 -> length args <> 4%nat -> steps s (own_sysex k args) s [].
Proof.
  intros Hk L. unfold steps, own_sysex. cbn [midi_step Datatypes.app]. unfold midi_sysex.
  replace (Z.of_nat (length (0 :: 34 :: 119 :: k :: args)) <? 4) with false by (symmetry; apply Z.ltb_ge; cbn [length]; lia).
  assert (F : forall h, fixed_length 4 h args s = WDone s []).
  { intros h. unfold fixed_length. replace (Z.of_nat (length args) =? 4) with false by (symmetry; apply Z.eqb_neq; lia). reflexivity. }
  destruct Hk as [-> | ->].
  - transitivity (wbind (WDone tt []) (fun _ => fixed_length 4 (direct_write 0) args s)); [reflexivity|]. unfold wbind. rewrite F. reflexivity.
  - transitivity (wbind (WDone tt []) (fun _ => fixed_length 4 (direct_write 1) args s)); [reflexivity|]. unfold wbind. rewrite F. reflexivity.
Qed.
Theorem raw_ignored r hw mem ops s0 tr0 k args : history r hw mem ops s0 tr0 -> k = 8 \/ k = 9 -> mop_ok (own_sysex k args) -> length args <> 4%nat ->
  history r hw mem (ops ++ [AMsg (own_sysex k args)]) s0 tr0.
Proof.
  intros H Hk Hm L.
  assert (E := raw_length_steps (a_midi s0) k args Hk L). rewrite <- (app_nil_r tr0).
  apply (history_snoc _ _ _ _ (AMsg (own_sysex k args)) _ _ _ _ H Hm). cbn [app_step]. unfold app_midi, steps in *. rewrite E. unfold perform_all. cbn [runM]. unfold ret. cbn. destruct s0; reflexivity.
Qed.

(** ** The option for the sound-editing controllers *)
Definition edit_after (b : bool) (m : mop) : bool :=
  match m with
  | MSysex [x; y; z; cmd; a] => if (x =? 0x00) && (y =? 0x22) && (z =? 0x77) && (cmd =? 0x04) then negb (a =? 0) else b
  | MReset => true
  | _ => b
  end.
Lemma edit_cases b data : (exists a, data = [0x00; 0x22; 0x77; 0x04; a]) \/ (forall a, data <> [0x00; 0x22; 0x77; 0x04; a]) /\ edit_after b (MSysex data) = b.
Proof.
  unfold edit_after. destruct data as [|x [|y [|z [|k [|a [|? t]]]]]]; try (right; split; [discriminate|reflexivity]).
  destruct (Z.eqb_spec x 0) as [->|]; [|right; split; [congruence|reflexivity]]. destruct (Z.eqb_spec y 34) as [->|]; [|right; split; [congruence|reflexivity]].
  destruct (Z.eqb_spec z 119) as [->|]; [|right; split; [congruence|reflexivity]]. destruct (Z.eqb_spec k 4) as [->|]; [|right; split; [congruence|reflexivity]].
  left. exists a. reflexivity.
Qed.
Lemma edit_step op h s s' o : True -> mop_ok op -> midi_ok s -> md_nogm s = negb h -> steps s op s' o -> midi_ok s' -> md_nogm s' = negb (edit_after h op).
Proof.
  intros _ Hop Hs HI E _. unfold steps in E.
  assert (Koff : forall c p, is_chan c -> midi_note_off c p s = WDone s' o -> md_nogm s' = negb h).
  { intros c p Hc E1. destruct (ok_ch_get _ _ Hs Hc) as (m & Hm & _).
    destruct (note_off_effect _ _ _ _ _ m Hs Hc Hm E1) as (_ & _ & st & _ & _ & ->). exact HI. }
  destruct op as [c p v|c p|c k v|c p|c b|data| | |cb]; cbn [midi_step mop_ok] in *; try match goal with |- _ = negb (edit_after _ ?m) => lazymatch m with MSysex _ => idtac | MReset => change (edit_after h m) with true | _ => change (edit_after h m) with h end end.
  - destruct Hop as (Hc & Hp & _). destruct (Z.eqb_spec v 0) as [->|Hv]; [apply (Koff c p); auto|].
    destruct (ok_ch_get _ _ Hs Hc) as (m & Hm & _).
    destruct (midi_note_on_eq c p v s m Hs Hc Hp Hv Hm) as (s1 & o1 & E2 & R). rewrite E in E2. injection E2 as <- <-. destruct R; exact HI.
  - destruct Hop. apply (Koff c p); assumption.
  - destruct Hop as (Hc & Hk & Hv). destruct (ok_ch_get _ _ Hs Hc) as (m & Hm & _).
    destruct (midi_cc_result _ _ _ _ m _ _ Hs Hc Hv Hm E) as (o' & R & _). clear E.
    destruct R as [m' Hf|Hk'|Hk'|Hk'|s1 Hk' E|Hk'|s1 o1 Hk' E|Hk' _|Hk' Hr|Hk'|o1 Hk' _|Hk'|devs o1 Hk' HH]; try exact HI.
    + destruct (set_poly_eq _ _ _ _ Hs E) as (_ & _ & _ & -> & _). exact HI.
    + rewrite (resetAll_eq _ _ Hs Hc) in E. injection E as <- _. exact HI.
  - destruct Hop as (Hc & _). destruct (ok_ch_get _ _ Hs Hc) as (m & Hm & _). rewrite (midi_program_eq _ _ _ m Hm) in E. injection E as <- <-. exact HI.
  - destruct Hop as (Hc & _). destruct (ok_ch_get _ _ Hs Hc) as (m & Hm & _). rewrite (midi_pitch_bend_eq _ _ _ m Hm) in E. injection E as <- <-. exact HI.
  - destruct (edit_cases h data) as [(a & ->)|[N ->]].
    + assert (X : midi_sysex [0; 34; 119; 4; a] s = WDone (md_set_nogm s (a =? 0)) []) by reflexivity. rewrite X in E. injection E as <- <-.
      change (edit_after h (MSysex [0; 34; 119; 4; a])) with (negb (a =? 0)). rewrite negb_involutive. reflexivity.
    + apply midi_sysex_result in E. destruct E as [|t s1 o1 Ed E|a b s1 Ed E|a Ed|a Ed|a Ed|a Ed|o1 _]; try exact HI.
      * destruct (gm_reset_eq s Hs) as (devs & o2 & o3 & E' & _). rewrite E' in E. injection E as <- <-. exact HI.
      * destruct Hop as (H7 & _). rewrite Ed in H7. do 4 apply Forall_inv_tail in H7.
        assert (Hx := Forall_inv H7). assert (Hy := Forall_inv (Forall_inv_tail H7)). unfold MidiSpec.seven in *.
        destruct (remap_eq a b s ltac:(apply Hs) ltac:(lia) ltac:(lia)) as [E'|(_ & i & d & a' & Hd & _ & E' & _)];
          rewrite E' in E; injection E as <-; exact HI.
      * destruct (set_dynamic_rest (negb (a =? 0)) s) as (_ & _ & _ & -> & _). exact HI.
      * destruct (N a Ed).
  - unfold reset in E. do 3 apply emit_inv in E as (? & E & ->). cbv zeta in E.
    rewrite reset_channels_eq in E by apply Hs. injection E as <- <-. reflexivity.
  - rewrite (midi_tick_eq _ Hs) in E. injection E as <- <-. exact HI.
  - injection E as <- <-. exact HI.
Qed.
Lemma editing_boot ms s o : boots_to ms s o -> md_nogm s = negb (editing ms).
Proof.
  intros B. apply (boot_induction edit_after true (fun _ => True) (fun h s => md_nogm s = negb h)) in B;
    [apply B|reflexivity|exact edit_step|apply Forall_forall; auto].
Qed.

(** ** C98: the sound-editing controllers *)
(** The setter of synth.c for a field. *)
Definition setter (f : field) (x : Z) : sop :=
  match f with
  | FAlgorithm n => SAlgorithm n x | FFeedback n => SFeedback n x | FOutputs n => SStereo n x | FAms n => SAms n x | FFms n => SFms n x
  | FMultiple n o => SMultiple n o x | FDetune n o => SDetune n o x | FAttack n o => SAttackRate n o x | FScaling n o => SRateScaling n o x
  | FDecay n o => SDecayRate n o x | FAmMod n o => SAmpMod n o x | FSustain n o => SSustainRate n o x | FRelease n o => SReleaseRate n o x
  | FSustainLevel n o => SSustainLevel n o x | FSsg n o => SSsgEg n o x | FLfo => SEnableLfo x | FLfoSpeed => SLfoFrequency x
  end.
(** ... and where synth.c keeps it. *)
Definition kept (f : field) (s : synth) : Z :=
  match f with
  | FAlgorithm n => c_alg (chn s n) | FFeedback n => c_fb (chn s n) | FOutputs n => c_st (chn s n) | FAms n => c_ams (chn s n) | FFms n => c_fms (chn s n)
  | FMultiple n o => o_mul (opr s n o) | FDetune n o => o_dt (opr s n o) | FAttack n o => o_ar (opr s n o) | FScaling n o => o_rs (opr s n o)
  | FDecay n o => o_dr (opr s n o) | FAmMod n o => o_am (opr s n o) | FSustain n o => o_sr (opr s n o) | FRelease n o => o_rr (opr s n o)
  | FSustainLevel n o => o_sl (opr s n o) | FSsg n o => o_ssg (opr s n o) | FLfo => s_lfoen s | FLfoSpeed => s_lfofreq s
  end.
Lemma field_eq_dec (f g : field) : {f = g} + {f <> g}.
Proof. decide equality; apply Z.eq_dec. Qed.
Lemma setter_ok f x : present f -> 0 <= x < 256 -> sop_ok (setter f x).
Proof. intros H Hx. destruct f; cbn in *; unfold is_ch, is_op, is_u8; tauto. Qed.
Lemma kept_post f g x s : synth_ok s -> present f -> present g -> 0 <= x < 2 ^ field_bits f ->
  kept g (post (setter f x) s) = if field_eq_dec g f then x else kept g s.
Proof.
  intros Hs Hf Hg Hx.
  assert (Q : forall n, 0 <= n < 6 -> is_ch n) by auto. assert (Q' : forall n, 0 <= n < 4 -> is_op n) by auto.
  destruct (field_eq_dec g f) as [->|N].
  - destruct f; cbn [present field_bits kept setter post] in *; pow;
      try (rewrite chn_set_ch, Z.eqb_refl by auto; apply Z.mod_small; lia);
      try (destruct Hf; rewrite opr_set_op, Z.eqb_refl by auto; apply Z.mod_small; lia);
      apply Z.mod_small; lia.
  - destruct f as [n|n|n|n|n|n o|n o|n o|n o|n o|n o|n o|n o|n o|n o| |]; cbn [setter post present] in *;
    destruct g as [n'|n'|n'|n'|n'|n' o'|n' o'|n' o'|n' o'|n' o'|n' o'|n' o'|n' o'|n' o'|n' o'| |]; cbn [kept present] in *; try reflexivity; try (exfalso; congruence).
    all: unfold opr; rewrite chn_set_ch by (exact Hs || (unfold is_ch; lia)); destruct (Z.eqb_spec n' n) as [->|]; [|reflexivity]; try reflexivity; try (exfalso; congruence).
    all: rewrite oper_set_op by ((apply chn_ok; [exact Hs|unfold is_ch; lia]) || (unfold is_op; lia)); destruct (Z.eqb_spec o' o) as [->|]; [|reflexivity]; first [reflexivity|exfalso; congruence].
Qed.
(** The registers mirror what synth.c keeps. *)
Lemma kept_read r hw mem ops s tr f : history r hw mem ops s tr -> without raw_write ops -> present f ->
  field_read f (ym_regs tr) = Some (kept f (v_synth (a_dev s))).
Proof.
  intros H W Hf. destruct (c13_app _ _ _ _ _ _ H W) as [(G1 & G2 & _) C].
  destruct (history_played _ _ _ _ _ _ H) as ((_ & ((Hs & _) & _) & _) & _).
  assert (K : forall n, 0 <= n < 6 -> chan_mirrored (ym_regs tr) n (chn (v_synth (a_dev s)) n)).
  { intros n Hn. destruct (C n Hn) as (ch & Z1 & M & _). rewrite (zget_chn _ Hs n Hn) in Z1. injection Z1 as <-. exact M. }
  assert (K2 : forall n o, 0 <= n < 6 /\ 0 <= o < 4 -> op_mirrored (ym_regs tr) n o (opr (v_synth (a_dev s)) n o)).
  { intros n o [Hn Ho]. destruct (K n Hn) as (_ & _ & _ & _ & _ & M). destruct (M o Ho) as (y & Z1 & M1).
    rewrite (zget_oper _ o (chn_ok _ Hs n Hn) Ho) in Z1. injection Z1 as <-. exact M1. }
  destruct f; cbn [field_read kept present] in *; try (apply (K n Hf)); try (apply (K2 n o Hf)); assumption.
Qed.
(** Several setters in a row. *)
Definition edit_reg (w : Z * Z * Z) : Prop := let '(_, g, _) := w in g = 0x22 \/ 0x30 <= g < 0x40 \/ 0x50 <= g < 0xA0 \/ 0xB0 <= g < 0xB8.
Lemma setter_writes f x s w : present f -> In w (writes (setter f x) s) -> edit_reg w.
Proof.
  intros Hf Hw. destruct f; cbn [setter writes present fkeys map] in *; destruct Hw as [<-|[]];
    unfold wk, edit_reg, addr, chan_reg, oper_reg, gbase; try lia.
  all: assert (0 <= op_off o <= 12) by (destruct (op_cases o (proj2 Hf)) as [-> | [-> | [-> | ->]]]; cbn; lia); lia.
Qed.
Lemma setters_run l x : forall s, synth_ok s -> Forall present l -> 0 <= x < 32 -> (forall f, In f l -> x < 2 ^ field_bits f) ->
  exists s' o, synth_run (map (fun f => setter f x) l) s = Done tt s' o /\ synth_ok s' /\ Forall edit_reg (ymw o) /\
    forall g, present g -> kept g s' = if in_dec field_eq_dec g l then x else kept g s.
Proof.
  induction l as [|f t IH]; intros s Hs Hl Hx Hb.
  - exists s, []. split; [reflexivity|]. split; [exact Hs|]. split; [constructor|]. intros g _. destruct (in_dec _ _ _) as [[]|]. reflexivity.
  - assert (Hf := Forall_inv Hl). assert (Ok := setter_ok f x Hf ltac:(lia)).
    destruct (step_runs _ s Hs Ok) as (o1 & E1 & W1 & _). assert (Hs1 := post_ok _ s Hs Ok).
    destruct (IH _ Hs1 (Forall_inv_tail Hl) Hx (fun g H => Hb g (or_intror H))) as (s2 & o2 & E2 & H2 & W2 & K2).
    exists s2, (o1 ++ o2). split; [|split; [exact H2|split]].
    + unfold synth_run in *. cbn [map runM]. unfold bind. rewrite E1, E2. reflexivity.
    + rewrite ymw_app, W1. apply Forall_app. split; [|exact W2]. apply Forall_forall. intros w. apply setter_writes. exact Hf.
    + intros g Hg. rewrite K2 by exact Hg. rewrite (kept_post f g x s Hs Hf Hg (conj (proj1 Hx) (Hb f (or_introl eq_refl)))).
      destruct (in_dec field_eq_dec g t) as [I|I]; destruct (in_dec field_eq_dec g (f :: t)) as [J|J]; [reflexivity|destruct (J (or_intror I))| |].
      * destruct J as [->|J]; [|contradiction]. destruct (field_eq_dec g g); [reflexivity|congruence].
      * destruct (field_eq_dec g f) as [->|]; [destruct (J (or_introl eq_refl))|reflexivity].
Qed.

(** The calls of a sound-editing controller. *)
Lemma fm_controls_edits k n x : ~ 16 <= k < 20 -> fm_controls k n x = option_map (fun f => setter f x) (edits k n).
Proof.
  intros N. unfold fm_controls, edits. cbv zeta.
  assert (L : forall b c, c = b + 3 -> (k <? b + 4) = (k <=? c)) by (intros b c ->; destruct (Z.ltb_spec k (b + 4)), (Z.leb_spec k (b + 3)); lia).
  rewrite (L 20 23), (L 24 27), (L 39 42), (L 43 46), (L 47 50), (L 51 54), (L 55 58), (L 59 62), (L 70 73), (L 90 93) by reflexivity.
  replace ((16 <=? k) && (k <? 16 + 4)) with false by (symmetry; apply andb_false_iff; destruct (Z.leb_spec 16 k), (Z.ltb_spec k (16 + 4)); auto; lia).
  repeat match goal with |- context [if ?b then _ else _] => lazymatch b with false => fail | _ => destruct b; [reflexivity|] end end. reflexivity.
Qed.

Lemma setter_inj f g x : setter f x = setter g x -> f = g.
Proof. destruct f, g; cbn; congruence. Qed.
Lemma as_setters x so (P : field -> Prop) : (forall op, In op so -> exists f, P f /\ op = setter f x) ->
  exists l, so = map (fun f => setter f x) l /\ Forall P l.
Proof.
  induction so as [|a t IH]; intros H; [exists []; split; [reflexivity|constructor]|].
  destruct (H a (or_introl eq_refl)) as (f & Pf & ->). destruct IH as (l & -> & F); [intros op Ho; apply H; right; exact Ho|].
  exists (f :: l). split; [reflexivity|constructor; assumption].
Qed.
Lemma edits_present k n f : 0 <= n < 6 -> edits k n = Some f -> present f.
Proof.
  intros Hn. unfold edits.
  repeat match goal with |- (if ?b then _ else _) = _ -> _ => destruct b eqn:?; [intros [= <-]; cbn; lia|] end. discriminate.
Qed.
Lemma edits_all k n m : edits k n <> None -> edits k m <> None.
Proof. unfold edits. repeat match goal with |- context [if ?b then _ else _] => destruct b; [discriminate|] end. auto. Qed.
Lemma RANGE_share v b : 0 <= v < 128 -> b = 1 \/ b = 2 \/ b = 3 \/ b = 4 \/ b = 5 -> RANGE v (2 ^ b) = v * 2 ^ b / 128.
Proof.
  intros Hv Hb. unfold RANGE. destruct Hb as [-> | [-> | [-> | [-> | ->]]]];
    match goal with |- Z.quot v ?n = _ => let q := eval vm_compute in n in change n with q end; rewrite Z.quot_div_nonneg by lia; pow; lia.
Qed.
Lemma edits_range k n f v s : ~ 16 <= k < 20 -> 0 <= v < 128 -> edits k n = Some f -> level_of s k v = dial f v /\ 0 <= dial f v < 2 ^ field_bits f.
Proof.
  intros N Hv E.
  assert (B : level_of s k v = RANGE v (2 ^ match f with FSustain _ _ => 4 | _ => field_bits f end)).
  { revert E. unfold edits, level_of, scaled, field_max. cbv zeta.
    repeat match goal with
    | |- (if ?k =? ?a then _ else _) = _ -> _ => destruct (Z.eqb_spec k a) as [->|]; [intros [= <-]; reflexivity|]
    | |- (if (?a <=? ?k) && (?k <=? ?b) then _ else _) = _ -> _ =>
        destruct ((a <=? k) && (k <=? b)) eqn:Q;
        [apply andb_true_iff in Q as [Q1%Z.leb_le Q2%Z.leb_le]; intros [= <-]; assert (X : k = a \/ k = a + 1 \/ k = a + 2 \/ k = a + 3) by lia; destruct X as [-> | [-> | [-> | ->]]]; reflexivity|clear Q]
    end. discriminate. }
  rewrite B. unfold dial. rewrite RANGE_share by (assumption || (destruct f; cbn; auto)). split; [reflexivity|].
  destruct f; cbn [field_bits]; pow; lia.
Qed.

(** Writes to those registers leave the rest of the chip alone. *)
Lemma edit_keeps o tr : Forall edit_reg (ym_writes o) ->
  (forall n, key_state (tr ++ o) n = key_state tr n) /\ (forall n, chip_freq (tr ++ o) n = chip_freq tr n) /\
  (forall n q, 0 <= n < 6 -> 0 <= q < 4 -> chip_tl (ym_regs (tr ++ o)) n q = chip_tl (ym_regs tr) n q).
Proof.
  intros F. split; [|split].
  - intros n. rewrite key_state_app. apply kw_free. intros [[p g] d] Hw. rewrite ymw_writes in Hw. rewrite Forall_forall in F. specialize (F _ Hw). cbn in F |- *. lia.
  - intros n. unfold chip_freq, yf_run. rewrite fold_left_app. generalize (fold_left yf_step tr (mkYf 0 (fun _ => None))). intros y.
    replace (fold_left yf_step o y) with y; [reflexivity|]. revert F. clear. revert y. induction o as [|e t IH]; intros y F; [reflexivity|].
    cbn [fold_left]. destruct e; cbn [yf_step ym_writes flat_map Datatypes.app] in *; try (apply IH; exact F).
    assert (G := Forall_inv F). cbn in G. apply Forall_inv_tail in F.
    destruct (Z.leb_spec 164 reg), (Z.leb_spec reg 166), (Z.leb_spec 160 reg), (Z.leb_spec reg 162); cbn [andb]; try lia; apply IH; exact F.
  - intros n q Hn Hq. unfold chip_tl, fld. rewrite ym_regs_app, ymw_writes. generalize (ym_regs tr). intros y.
    replace (rrun y (ym_writes o) (part_of n) (oper_reg 64 n q)) with (y (part_of n) (oper_reg 64 n q)); [reflexivity|].
    revert F. generalize (ym_writes o). clear - Hn Hq. intros l. revert y. induction l as [|[[p g] d] t IH]; intros y F; [reflexivity|].
    unfold rrun in *. cbn [fold_left]. rewrite <- IH by exact (Forall_inv_tail F). assert (G := Forall_inv F). cbn in G. unfold rstep. cbn [fst snd].
    assert (R : 64 <= oper_reg 64 n q < 80).
    { unfold oper_reg. assert (0 <= op_off q <= 12) by (destruct (op_cases q Hq) as [-> | [-> | [-> | ->]]]; cbn; lia). lia. }
    destruct (Z.eqb_spec (oper_reg 64 n q) g); [lia|]. rewrite andb_false_r. reflexivity.
Qed.

Theorem edit_controls r hw mem ops s0 tr0 c k v : history r hw mem ops s0 tr0 -> without raw_write ops -> editing (map message ops) = true ->
  is_chan c -> 0 <= v < 128 -> edits k 0 <> None ->
  exists s o, history r hw mem (ops ++ [AMsg (MCc c k v)]) s (tr0 ++ o) /\
    (forall i d f, serves (a_midi s0) c i d -> edits k (d_num d) = Some f -> field_read f (ym_regs (tr0 ++ o)) = Some (dial f v)) /\
    (forall g, present g -> (forall i d, serves (a_midi s0) c i d -> edits k (d_num d) <> Some g) ->
       field_read g (ym_regs (tr0 ++ o)) = field_read g (ym_regs tr0)) /\
    (forall n, key_state (tr0 ++ o) n = key_state tr0 n) /\ (forall n, chip_freq (tr0 ++ o) n = chip_freq tr0 n) /\
    (forall n q, 0 <= n < 6 -> 0 <= q < 4 -> chip_tl (ym_regs (tr0 ++ o)) n q = chip_tl (ym_regs tr0) n q) /\
    filter psg_event o = [] /\ Forall (eq (EvMidiChange 2 c k v)) (filter other_event o) /\ a_midi s = a_midi s0.
Proof.
  intros H W Ed Hc Hv Hk.
  destruct (history_played _ _ _ _ _ _ H) as ((Hs & ((Hsy & _) & _) & _) & cs0 & B & _).
  assert (Ng : md_nogm (a_midi s0) = false).
  { rewrite (editing_boot _ _ _ B). change (editing (MCallback true :: map message ops)) with (editing (map message ops)). rewrite Ed. reflexivity. }
  assert (N16 : ~ 16 <= k < 20).
  { intros X. apply Hk. assert (Y : k = 16 \/ k = 17 \/ k = 18 \/ k = 19) by lia. destruct Y as [-> | [-> | [-> | ->]]]; reflexivity. }
  assert (Fk : is_fm_controller k).
  { unfold is_fm_controller. rewrite fm_controls_edits by exact N16. destruct (edits k 0); [discriminate|congruence]. }
  assert (Kr : 0 <= k < 128).
  { unfold edits in Hk. destruct (Z_lt_ge_dec k 0); [|destruct (Z_lt_ge_dec k 128); [lia|]]; exfalso; apply Hk;
      repeat match goal with |- (if ?b then _ else _) = _ => replace b with false by (symmetry; apply Z.eqb_neq || (apply andb_false_iff; (left; apply Z.leb_gt; lia) || (right; apply Z.leb_gt; lia)); lia) end; reflexivity. }
  assert (Mo : mop_ok (MCc c k v)) by (cbn; unfold MidiSpec.seven; auto).
  destruct (midi_step (MCc c k v) (a_midi s0)) as [s1 cs|f] eqn:St.
  2:{ exfalso. assert (X := midi_step_ok (MCc c k v) _ Hs Mo). rewrite St in X. destruct X as [_ (y & [=] & _)]. }
  change (steps (a_midi s0) (MCc c k v) s1 cs) in St.
  destruct (fm_controller_sets _ _ _ _ _ _ Hs Hc Hv Fk Ng St) as (-> & F1 & F2).
  destruct (fm_cc_calls _ _ _ _ _ _ Hs Hc Hv Fk St) as (_ & Ecs).
  assert (Q : Forall synth_or_change cs).
  { rewrite Ecs. apply Forall_app. split; [|destruct (md_cb _); repeat constructor]. apply Forall_flat_map, Forall_forall. intros d _. unfold calls_at, fm_call.
    destruct (_ =? _); [|constructor]. destruct (md_nogm _); [constructor|]. destruct (fm_parameter _ _ _ _); repeat constructor. }
  destruct (edit_performed _ _ _ _ _ _ _ _ _ H Mo St Q) as (s & o & Hh & Em & S & P & X & C).
  exists s, o. split; [exact Hh|].
  assert (Num : forall i d, serves (a_midi s0) c i d -> 0 <= d_num d < 6).
  { intros i d [Hd _]. destruct (ok_dev _ _ _ Hs Hd) as [[Sh _] _]. apply (shape_num i); [|exact Sh]. apply zget_Some in Hd. destruct Hs as [Hl _]. lia. }
  destruct (edits k 0) as [f0|] eqn:E0; [|congruence]. set (x := level_of (a_midi s0) k v) in *.
  destruct (as_setters x (flat_map sops cs) (fun f => exists i d, serves (a_midi s0) c i d /\ edits k (d_num d) = Some f)) as (l & El & Fl).
  { intros op Hop. apply in_flat_map in Hop as (y & Hy & Hop). destruct y as [| | | | | | | |sp| | | | | | | | | | | | | |]; try (destruct Hop; fail). destruct Hop as [<-|[]].
    destruct (F2 sp Hy) as (i & d & Sv & Fc). rewrite fm_controls_edits in Fc by exact N16. destruct (edits k (d_num d)) as [f|] eqn:Ef; [|discriminate].
    injection Fc as <-. exists f. split; [eauto|reflexivity]. }
  assert (Pl : Forall present l).
  { eapply Forall_impl; [|exact Fl]. intros f (i & d & Sv & Ef). apply (edits_present k (d_num d)); [exact (Num _ _ Sv)|exact Ef]. }
  assert (Bl : forall f, In f l -> x < 2 ^ field_bits f).
  { intros f Hf. rewrite Forall_forall in Fl. destruct (Fl f Hf) as (i & d & _ & Ef). unfold x. destruct (edits_range k _ f v (a_midi s0) N16 Hv Ef) as [-> Y]. apply Y. }
  assert (Bx : 0 <= x < 32).
  { unfold x. destruct (edits_range k 0 f0 v (a_midi s0) N16 Hv E0) as [-> Y]. split; [apply Y|]. eapply Z.lt_le_trans; [apply Y|]. destruct f0; cbn [field_bits]; pow; lia. }
  destruct (setters_run l x _ Hsy Pl Bx Bl) as (s2 & o2 & R1 & R2 & R3 & R4). rewrite El, R1 in S. injection S as S1 S2.
  rewrite ymw_writes, S2, <- ym_writes_fm in R3. subst s2.
  assert (Wr : without raw_write (ops ++ [AMsg (MCc c k v)])).
  { intros m Hm. apply in_app_or in Hm as [Hm|[[= <-]|[]]]; [apply W; exact Hm|]. intros [(a & [=])|(a & [=])]. }
  split; [|split].
  - intros i d f Sv Ef. assert (Pf : present f) by (apply (edits_present k (d_num d)); [exact (Num _ _ Sv)|exact Ef]).
    rewrite (kept_read _ _ _ _ _ _ f Hh Wr Pf), (R4 f Pf).
    destruct (in_dec field_eq_dec f l) as [I|I].
    + f_equal. unfold x. apply (edits_range k (d_num d)); assumption.
    + exfalso. apply I. destruct (F1 i d Sv) as (op & Fo & Hin). rewrite fm_controls_edits, Ef in Fo by exact N16. injection Fo as <-.
      assert (J : In (setter f x) (flat_map sops cs)) by (apply in_flat_map; exists (DSynth (setter f x)); split; [exact Hin|left; reflexivity]).
      rewrite El in J. apply in_map_iff in J as (g & Eg & Hg). apply setter_inj in Eg. subst g. exact Hg.
  - intros g Pg Ng'. rewrite (kept_read _ _ _ _ _ _ g Hh Wr Pg), (kept_read _ _ _ _ _ _ g H W Pg), (R4 g Pg).
    destruct (in_dec field_eq_dec g l) as [I|I]; [|reflexivity]. exfalso. rewrite Forall_forall in Fl. destruct (Fl g I) as (i & d & Sv & Ef). exact (Ng' i d Sv Ef).
  - destruct (edit_keeps o tr0 R3) as (K1 & K2 & K3). split; [exact K1|]. split; [exact K2|]. split; [exact K3|]. split; [exact P|]. split; [|exact Em].
    rewrite X, Ecs, flat_map_app. apply Forall_app. split; [|destruct (md_cb _); repeat constructor].
    apply Forall_flat_map, Forall_flat_map, Forall_forall. intros d _. unfold calls_at, fm_call.
    destruct (_ =? _); [|constructor]. destruct (md_nogm _); [constructor|]. destruct (fm_parameter _ _ _ _); repeat constructor.
Qed.

(** In static mode, MIDI channels 1 to 6 edit the FM channel of their own number. *)
Theorem edit_static r hw mem ops s0 tr0 c k v f : history r hw mem ops s0 tr0 -> without raw_write ops -> without remaps ops -> editing (map message ops) = true ->
  0 <= c < 6 -> 0 <= v < 128 -> edits k c = Some f ->
  exists s o, history r hw mem (ops ++ [AMsg (MCc c k v)]) s (tr0 ++ o) /\
    field_read f (ym_regs (tr0 ++ o)) = Some (dial f v) /\
    (forall g, present g -> g <> f -> field_read g (ym_regs (tr0 ++ o)) = field_read g (ym_regs tr0)).
Proof.
  intros H W W2 Ed Hc Hv Ef.
  destruct (history_played _ _ _ _ _ _ H) as ((Hs & _) & cs0 & B & _). assert (S := static_before _ _ _ B W2).
  assert (K0 : edits k 0 <> None) by (apply (edits_all k c); congruence).
  destruct (edit_controls _ _ _ _ _ _ c k v H W Ed ltac:(unfold is_chan; lia) Hv K0) as (s & o & Hh & E1 & E2 & _).
  exists s, o. split; [exact Hh|].
  assert (Sv : forall i d, serves (a_midi s0) c i d -> d_num d = c).
  { intros i d [Hd Hm]. destruct S as [_ S]. assert (i = c) by (rewrite <- (S i d Hd); exact Hm). subst i.
    destruct (ok_dev _ _ _ Hs Hd) as [[(Sh & _) _] _]. apply Sh. lia. }
  split.
  - destruct (zget_in_range (md_dev (a_midi s0)) c) as [d Hd]; [destruct Hs as [-> _]; lia|].
    assert (V : serves (a_midi s0) c c d) by (split; [exact Hd|apply (proj2 S); exact Hd]).
    apply (E1 c d f V). rewrite (Sv c d V). exact Ef.
  - intros g Pg N. apply E2; [exact Pg|]. intros i d V X. rewrite (Sv i d V), Ef in X. congruence.
Qed.
(** With the option off they do nothing. *)
Theorem edit_off r hw mem ops s0 tr0 c k v : history r hw mem ops s0 tr0 -> editing (map message ops) = false ->
  is_chan c -> 0 <= v < 128 -> edits k 0 <> None ->
  exists s o, history r hw mem (ops ++ [AMsg (MCc c k v)]) s (tr0 ++ o) /\ Forall (eq (EvMidiChange 2 c k v)) o.
Proof.
  intros H Ed Hc Hv Hk.
  destruct (history_played _ _ _ _ _ _ H) as ((Hs & _) & cs0 & B & _).
  assert (Ng : md_nogm (a_midi s0) = true).
  { rewrite (editing_boot _ _ _ B). change (editing (MCallback true :: map message ops)) with (editing (map message ops)). rewrite Ed. reflexivity. }
  assert (N16 : ~ 16 <= k < 20).
  { intros X. apply Hk. assert (Y : k = 16 \/ k = 17 \/ k = 18 \/ k = 19) by lia. destruct Y as [-> | [-> | [-> | ->]]]; reflexivity. }
  assert (Fk : is_fm_controller k).
  { unfold is_fm_controller. rewrite fm_controls_edits by exact N16. destruct (edits k 0); [discriminate|congruence]. }
  assert (Kr : 0 <= k < 128).
  { unfold edits in Hk. destruct (Z_lt_ge_dec k 0); [|destruct (Z_lt_ge_dec k 128); [lia|]]; exfalso; apply Hk;
      repeat match goal with |- (if ?b then _ else _) = _ => replace b with false by (symmetry; apply Z.eqb_neq || (apply andb_false_iff; (left; apply Z.leb_gt; lia) || (right; apply Z.leb_gt; lia)); lia) end; reflexivity. }
  assert (Mo : mop_ok (MCc c k v)) by (cbn; unfold MidiSpec.seven; auto).
  destruct (midi_step (MCc c k v) (a_midi s0)) as [s1 cs|f] eqn:St.
  2:{ exfalso. assert (X := midi_step_ok (MCc c k v) _ Hs Mo). rewrite St in X. destruct X as [_ (y & [=] & _)]. }
  change (steps (a_midi s0) (MCc c k v) s1 cs) in St.
  destruct (covered_disabled _ _ _ _ _ _ Hs Hc Hv (or_introl Fk) Ng St) as (-> & Ecs).
  assert (Q : Forall synth_or_change cs) by (rewrite Ecs; destruct (md_cb _); repeat constructor).
  destruct (edit_performed _ _ _ _ _ _ _ _ _ H Mo St Q) as (s & o & Hh & Em & S & P & X & C).
  exists s, o. split; [exact Hh|].
  assert (Z1 : flat_map sops cs = []) by (rewrite Ecs; destruct (md_cb _); reflexivity). rewrite Z1 in S. cbn in S. injection S as _ S.
  assert (Z2 : Forall (eq (EvMidiChange 2 c k v)) (filter other_event o)) by (rewrite X, Ecs; destruct (md_cb _); repeat constructor).
  replace (filter other_event o) with o in Z2; [exact Z2|]. clear - S P. symmetry in S. induction o as [|e t IH]; [reflexivity|]. cbn [filter] in *. unfold other_event at 1.
  destruct (fm_event e); [discriminate|]. destruct (psg_event e); [discriminate|]. cbn [orb negb]. f_equal. apply IH; assumption.
Qed.
