(** The controllers for the levels of operators, from the message on. *)
From Verif Require Import Base BaseLemmas SynthModel SynthSpec SynthProofs SynthMirrorProofs SynthClaimsProofs.
From Verif Require Import MidiModel MidiSpec MidiProofs MidiOkProofs MidiEqProofs MidiEffectProofs MidiCallProofs MidiDevProofs MidiNoteProofs MidiChanProofs MidiTuneProofs MidiSysexProofs MidiStaticProofs MidiHistProofs MidiInvProofs.
From Verif Require Import PsgModel DevModel DevSpec DevProofs AppModel AppSpec AppProofs AppTraceProofs AppClaimsProofs AppToneProofs SoundSpec SongPlayProofs EditSpec EditProofs.

(** ** The option that inverts them *)
Definition inv_after (b : bool) (m : mop) : bool :=
  match m with
  | MSysex [x; y; z; cmd; a] => if (x =? 0x00) && (y =? 0x22) && (z =? 0x77) && (cmd =? 0x07) then negb (a =? 0) else b
  | MReset => false
  | _ => b
  end.
Lemma inv_cases b data : (exists a, data = [0x00; 0x22; 0x77; 0x07; a]) \/ (forall a, data <> [0x00; 0x22; 0x77; 0x07; a]) /\ inv_after b (MSysex data) = b.
Proof.
  unfold inv_after. destruct data as [|x [|y [|z [|k [|a [|? t]]]]]]; try (right; split; [discriminate|reflexivity]).
  destruct (Z.eqb_spec x 0) as [->|]; [|right; split; [congruence|reflexivity]]. destruct (Z.eqb_spec y 34) as [->|]; [|right; split; [congruence|reflexivity]].
  destruct (Z.eqb_spec z 119) as [->|]; [|right; split; [congruence|reflexivity]]. destruct (Z.eqb_spec k 7) as [->|]; [|right; split; [congruence|reflexivity]].
  left. exists a. reflexivity.
Qed.
Lemma inv_step op h s s' o : True -> mop_ok op -> midi_ok s -> md_inv s = h -> steps s op s' o -> midi_ok s' -> md_inv s' = inv_after h op.
Proof.
  intros _ Hop Hs HI E _. unfold steps in E.
  assert (Koff : forall c p, is_chan c -> midi_note_off c p s = WDone s' o -> md_inv s' = h).
  { intros c p Hc E1. destruct (ok_ch_get _ _ Hs Hc) as (m & Hm & _).
    destruct (note_off_effect _ _ _ _ _ m Hs Hc Hm E1) as (_ & _ & st & _ & _ & ->). exact HI. }
  destruct op as [c p v|c p|c k v|c p|c b|data| | |cb]; cbn [midi_step mop_ok] in *; try match goal with |- _ = inv_after _ ?m => lazymatch m with MSysex _ => idtac | MReset => change (inv_after h m) with false | _ => change (inv_after h m) with h end end.
  - destruct Hop as (Hc & Hp & _). destruct (Z.eqb_spec v 0) as [->|Hv]; [apply (Koff c p); auto|].
    destruct (ok_ch_get _ _ Hs Hc) as (m & Hm & _).
    destruct (midi_note_on_eq c p v s m Hs Hc Hp Hv Hm) as (s1 & o1 & E2 & R). rewrite E in E2. injection E2 as <- <-. destruct R; exact HI.
  - destruct Hop. apply (Koff c p); assumption.
  - destruct Hop as (Hc & Hk & Hv). destruct (ok_ch_get _ _ Hs Hc) as (m & Hm & _).
    destruct (midi_cc_result _ _ _ _ m _ _ Hs Hc Hv Hm E) as (o' & R & _). clear E.
    destruct R as [m' Hf|Hk'|Hk'|Hk'|s1 Hk' E|Hk'|s1 o1 Hk' E|Hk' _|Hk' Hr|Hk'|o1 Hk' _|Hk'|devs o1 Hk' HH]; try exact HI.
    + destruct (set_poly_eq _ _ _ _ Hs E) as (_ & _ & _ & _ & _ & -> & _). exact HI.
    + rewrite (resetAll_eq _ _ Hs Hc) in E. injection E as <- _. exact HI.
  - destruct Hop as (Hc & _). destruct (ok_ch_get _ _ Hs Hc) as (m & Hm & _). rewrite (midi_program_eq _ _ _ m Hm) in E. injection E as <- <-. exact HI.
  - destruct Hop as (Hc & _). destruct (ok_ch_get _ _ Hs Hc) as (m & Hm & _). rewrite (midi_pitch_bend_eq _ _ _ m Hm) in E. injection E as <- <-. exact HI.
  - destruct (inv_cases h data) as [(a & ->)|[N ->]].
    + assert (X : midi_sysex [0; 34; 119; 7; a] s = WDone (md_set_inv s (negb (a =? 0))) []) by reflexivity. rewrite X in E. injection E as <- <-. reflexivity.
    + apply midi_sysex_result in E. destruct E as [|t s1 o1 Ed E|a b s1 Ed E|a Ed|a Ed|a Ed|a Ed|o1 _]; try exact HI.
      * destruct (gm_reset_eq s Hs) as (devs & o2 & o3 & E' & _). rewrite E' in E. injection E as <- <-. exact HI.
      * destruct Hop as (H7 & _). rewrite Ed in H7. do 4 apply Forall_inv_tail in H7.
        assert (Hx := Forall_inv H7). assert (Hy := Forall_inv (Forall_inv_tail H7)). unfold MidiSpec.seven in *.
        destruct (remap_eq a b s ltac:(apply Hs) ltac:(lia) ltac:(lia)) as [E'|(_ & i & d & a' & Hd & _ & E' & _)];
          rewrite E' in E; injection E as <-; exact HI.
      * destruct (set_dynamic_rest (negb (a =? 0)) s) as (_ & _ & _ & _ & _ & -> & _). exact HI.
      * destruct (N a Ed).
  - unfold reset in E. do 3 apply emit_inv in E as (? & E & ->). cbv zeta in E.
    rewrite reset_channels_eq in E by apply Hs. injection E as <- <-. reflexivity.
  - rewrite (midi_tick_eq _ Hs) in E. injection E as <- <-. exact HI.
  - injection E as <- <-. exact HI.
Qed.
Lemma inverted_boot ms s o : boots_to ms s o -> md_inv s = levels_inverted ms.
Proof.
  intros B. apply (boot_induction inv_after false (fun _ => True) (fun h s => md_inv s = h)) in B;
    [apply B|reflexivity|exact inv_step|apply Forall_forall; auto].
Qed.

(** ** The level in the chip *)
Lemma level_twice c q x s : synth_ok s -> is_ch c -> is_op q -> 0 <= x < 128 ->
  let s' := post (STotalLevel c q x) s in o_tl (opr s' c q) = x /\ post (STotalLevel c q x) s' = s' /\ writes (STotalLevel c q x) s' = [].
Proof.
  intros Hs Hc Hq Hx. cbv zeta.
  assert (E : o_tl (opr (post (STotalLevel c q x) s) c q) = x).
  { cbn [post]. destruct (Z.eqb_spec (o_tl (opr s c q)) x) as [E|N]; [exact E|]. rewrite opr_set_op, Z.eqb_refl by assumption. cbn [o_tl op_set_tl]. unfold bits. apply Z.mod_small. lia. }
  split; [exact E|]. split.
  - cbn [post] in *. rewrite E, Z.eqb_refl. reflexivity.
  - cbn [writes fkeys]. rewrite E, Z.eqb_refl. reflexivity.
Qed.
Lemma level_runs c q x l : forall s s' o, synth_ok s -> is_ch c -> is_op q -> 0 <= x < 128 -> l <> [] -> Forall (eq (STotalLevel c q x)) l ->
  synth_run l s = Done tt s' o -> s' = post (STotalLevel c q x) s /\ ymw o = writes (STotalLevel c q x) s.
Proof.
  induction l as [|a t IH]; intros s s' o Hs Hc Hq Hx N F E; [congruence|].
  assert (A := Forall_inv F). subst a. assert (Ok : sop_ok (STotalLevel c q x)) by (cbn; unfold is_u8, is_ch, is_op in *; lia).
  unfold synth_run in E. cbn [runM] in E. apply bind_inv in E as ([] & s1 & o1 & o2 & E1 & E2 & ->).
  destruct (step_runs _ s Hs Ok) as (o3 & R1 & R2 & _). rewrite E1 in R1. injection R1 as -> <-.
  destruct (level_twice c q x s Hs Hc Hq Hx) as (_ & T1 & T2).
  destruct t as [|b u].
  - cbn in E2. injection E2 as <- <-. rewrite app_nil_r. split; [reflexivity|exact R2].
  - destruct (IH _ _ _ (post_ok _ _ Hs Ok) Hc Hq Hx ltac:(discriminate) (Forall_inv_tail F) E2) as [-> W]. rewrite T1. split; [reflexivity|].
    rewrite ymw_app, W, T2, app_nil_r. exact R2.
Qed.

Theorem level_static r hw mem ops s0 tr0 c q v : history r hw mem ops s0 tr0 -> without remaps ops -> editing (map message ops) = true ->
  0 <= c < 6 -> 0 <= q < 4 -> 0 <= v < 128 ->
  exists s o ch y vl, history r hw mem (ops ++ [AMsg (MCc c (16 + q) v)]) s (tr0 ++ o) /\
    zget (s_chans (v_synth (a_dev s0))) c = Some ch /\ zget (c_ops ch) q = Some y /\ zget (s_vols (v_synth (a_dev s0))) c = Some vl /\
    (o_tl y <> told_level (map message ops) v \/ chip_tl (ym_regs tr0) c q = Some (expected_level (c_alg ch) vl q (o_tl y)) ->
     chip_tl (ym_regs (tr0 ++ o)) c q = Some (expected_level (c_alg ch) vl q (told_level (map message ops) v))) /\
    Forall (fun w => fst w = (part_of c, oper_reg 0x40 c q)) (ym_writes o) /\ filter psg_event o = [] /\
    Forall (eq (EvMidiChange 2 c (16 + q) v)) (filter other_event o) /\ a_midi s = a_midi s0.
Proof.
  intros H W Ed Hc Hq Hv. set (k := 16 + q) in *. set (x := told_level (map message ops) v).
  destruct (history_played _ _ _ _ _ _ H) as ((Hs & ((Hsy & _) & _) & _) & cs0 & B & _).
  assert (St0 := static_before _ _ _ B W).
  assert (Ng : md_nogm (a_midi s0) = false).
  { rewrite (editing_boot _ _ _ B). change (editing (MCallback true :: map message ops)) with (editing (map message ops)). rewrite Ed. reflexivity. }
  assert (Lv : level_of (a_midi s0) k v = x).
  { unfold level_of. replace ((16 <=? k) && (k <? 20)) with true by (symmetry; apply andb_true_iff; split; [apply Z.leb_le|apply Z.ltb_lt]; lia).
    rewrite (inverted_boot _ _ _ B). reflexivity. }
  assert (Hx : 0 <= x < 128) by (unfold x, told_level; destruct (levels_inverted _); lia).
  assert (Fc : forall n y, fm_controls k n y = Some (STotalLevel n q y)).
  { intros n y. unfold k. assert (Q : q = 0 \/ q = 1 \/ q = 2 \/ q = 3) by lia. destruct Q as [-> | [-> | [-> | ->]]]; reflexivity. }
  assert (Fk : is_fm_controller k) by (unfold is_fm_controller; rewrite Fc; discriminate).
  assert (Hch : is_chan c) by (unfold is_chan; lia). assert (Hcc : is_ch c) by (unfold is_ch; lia). assert (Hqq : is_op q) by (unfold is_op; lia).
  assert (Mo : mop_ok (MCc c k v)) by (cbn; unfold MidiSpec.seven, is_chan; lia).
  destruct (midi_step (MCc c k v) (a_midi s0)) as [s1 cs|f] eqn:St.
  2:{ exfalso. assert (X := midi_step_ok (MCc c k v) _ Hs Mo). rewrite St in X. destruct X as [_ (y & [=] & _)]. }
  change (steps (a_midi s0) (MCc c k v) s1 cs) in St.
  destruct (fm_controller_sets _ _ _ _ _ _ Hs Hch Hv Fk Ng St) as (-> & F1 & F2).
  destruct (fm_cc_calls _ _ _ _ _ _ Hs Hch Hv Fk St) as (_ & Ecs). rewrite Lv in F1, F2.
  assert (Q : Forall synth_or_change cs).
  { rewrite Ecs. apply Forall_app. split; [|destruct (md_cb _); repeat constructor]. apply Forall_flat_map, Forall_forall. intros d _. unfold calls_at, fm_call.
    destruct (_ =? _); [|constructor]. destruct (md_nogm _); [constructor|]. destruct (fm_parameter _ _ _ _); repeat constructor. }
  destruct (edit_performed _ _ _ _ _ _ _ _ _ H Mo St Q) as (s & o & Hh & Em & S & P & X & C).
  assert (Sv : forall i d, serves (a_midi s0) c i d -> d_num d = c).
  { intros i d [Hd Hm]. destruct St0 as [_ S0]. assert (i = c) by (rewrite <- (S0 i d Hd); exact Hm). subst i.
    destruct (ok_dev _ _ _ Hs Hd) as [[(Sh & _) _] _]. apply Sh. lia. }
  assert (Fl : Forall (eq (STotalLevel c q x)) (flat_map sops cs)).
  { apply Forall_forall. intros op Hop. apply in_flat_map in Hop as (y & Hy & Hop).
    destruct y as [| | | | | | | |sp| | | | | | | | | | | | | |]; try (destruct Hop; fail). destruct Hop as [<-|[]].
    destruct (F2 sp Hy) as (i & d & V & E). rewrite Fc, (Sv i d V) in E. congruence. }
  assert (Ne : flat_map sops cs <> []).
  { destruct (zget_in_range (md_dev (a_midi s0)) c) as [d Hd]; [destruct Hs as [-> _]; lia|].
    assert (V : serves (a_midi s0) c c d) by (split; [exact Hd|apply (proj2 St0); exact Hd]).
    destruct (F1 c d V) as (op & Fo & Hin). intros Z0.
    assert (J : In op (flat_map sops cs)) by (apply in_flat_map; exists (DSynth op); split; [exact Hin|left; reflexivity]). rewrite Z0 in J. destruct J. }
  destruct (level_runs c q x _ _ _ _ Hsy Hcc Hqq Hx Ne Fl S) as [_ Wr].
  assert (Yw : ymw o = ymw (filter fm_event o)) by (rewrite !ymw_writes; apply ym_writes_fm).
  rewrite <- Yw in Wr. clear Yw. set (sy := v_synth (a_dev s0)) in *.
  exists s, o, (chn sy c), (opr sy c q), (vol sy c). split; [exact Hh|]. split; [apply zget_chn; assumption|].
  split; [apply zget_oper; [apply chn_ok; assumption|assumption]|]. split; [apply zget_vol; assumption|].
  assert (Ht : 0 <= o_tl (opr sy c q) < 128) by apply (opr_ok sy c q Hsy Hcc Hqq).
  cbn [writes fkeys] in Wr. split; [|split; [|split; [exact P|split; [|exact Em]]]].
  - intros D. unfold chip_tl in D |- *. rewrite ym_regs_app, Wr.
    destruct (Z.eqb_spec (o_tl (opr sy c q)) x) as [E|N].
    + destruct D as [D|D]; [congruence|]. cbn [flush map]. unfold rrun. cbn [fold_left]. rewrite <- E. exact D.
    + clear D. cbn [flush map]. unfold wk, rrun. cbn [fold_left addr fst snd gbase]. unfold rstep. cbn [fst snd]. unfold fld. rewrite !Z.eqb_refl. cbn [andb enc].
      assert (Pk : synth_ok (post (STotalLevel c q x) sy)) by (apply post_ok; [exact Hsy|cbn; unfold is_u8, is_ch, is_op in *; lia]).
      destruct (level_twice c q x sy Hsy Hcc Hqq Hx) as (T & _). cbv zeta. rewrite T.
      rewrite (level_expected _ c q x Pk Hcc Hqq Hx).
      assert (A : c_alg (chn (post (STotalLevel c q x) sy) c) = c_alg (chn sy c) /\ vol (post (STotalLevel c q x) sy) c = vol sy c).
      { cbn [post]. destruct (o_tl (opr sy c q) =? x); [auto|]. rewrite chn_set_ch, Z.eqb_refl by assumption. split; reflexivity. }
      destruct A as [-> ->].
      assert (R := expected_range (c_alg (chn sy c)) (vol sy c) q x (vol_ok sy Hsy c Hcc) Hx).
      rewrite Z.pow_0_r, Z.div_1_r. unfold u8. rewrite (Z.mod_small _ 256) by lia. f_equal. apply Z.mod_small. exact R.
  - rewrite <- ymw_writes, Wr. destruct (o_tl (opr sy c q) =? x); [constructor|]. cbn [flush map]. constructor; [|constructor]. reflexivity.
  - rewrite X, Ecs, flat_map_app. apply Forall_app. split; [|destruct (md_cb _); repeat constructor].
    apply Forall_flat_map, Forall_flat_map, Forall_forall. intros d _. unfold calls_at, fm_call.
    destruct (d_midi d =? c); [|constructor]. destruct (md_nogm _); [constructor|]. destruct (fm_parameter _ _ _ _); repeat constructor.
Qed.
