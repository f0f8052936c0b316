(** The sample channel and the voices of special mode, from the message on. *)
From Verif Require Import Base BaseLemmas PitchModel PitchProofs SynthModel SynthSpec SynthProofs SynthMirrorProofs SynthClaimsProofs.
From Verif Require Import MidiModel MidiSpec MidiProofs MidiOkProofs MidiEqProofs MidiEffectProofs MidiCallProofs MidiDevProofs MidiNoteProofs MidiChanProofs MidiTuneProofs MidiSysexProofs MidiStaticProofs MidiHistProofs MidiInvProofs MidiPlaceProofs.
From Verif Require Import PsgModel DevModel DevSpec DevProofs AppModel AppSpec AppProofs AppTraceProofs AppClaimsProofs AppToneProofs SoundSpec AppNoteProofs SongPlayProofs EditSpec EditProofs.

(** ** Calls to the voices [VDac] and [VSm] *)
Definition small_voice (k : vtable) : Prop := k = VDac \/ k = VSm.
(** Calls a note or a release on such a voice makes. *)
Definition small_call (k : vtable) (n : Z) (c : dcall) : Prop :=
  match c with
  | DVolume k' n' _ | DPan k' n' _ | DProgram k' n' _ | DPitch k' n' _ _ | DNoteOff k' n' _ | DNoteOn k' n' _ _ _ | DAllOff k' n' => k' = k /\ n' = n
  | DPerc _ _ => True
  | _ => False
  end.
Definition small_sops (r : rom) (c : dcall) : list sop :=
  match c with
  | DNoteOn VSm n p ce v => [SSpecialPitch n (pitch_to_octave p) (freq_of r p ce); SSpecialVolume n v]
  | DPitch VSm n p ce => [SSpecialPitch n (pitch_to_octave p) (freq_of r p ce)]
  | _ => []
  end.
Definition small_events (r : rom) (c : dcall) : list event :=
  match c with
  | DNoteOn VDac _ p _ _ => match zget (rom_pcm r) p with Some (Some smp) => [EvPcmStart smp] | _ => [] end
  | DNoteOff VDac _ _ => [EvPcmStop]
  | _ => []
  end.
Lemma small_run r (Hr : rom_ok r) det k n cs : small_voice k -> forall s, dev_inv s -> psg_good r (v_psg s) -> Forall dcall_ok cs -> Forall (small_call k n) cs ->
  Forall (fun c => ~ beyond_samples c) cs ->
  exists s' o, perform_all r det cs s = Done tt s' o /\ synth_run (flat_map (small_sops r) cs) (v_synth s) = Done tt (v_synth s') (filter fm_event o) /\
    filter psg_event o = [] /\ filter other_event o = flat_map (small_events r) cs.
Proof.
  intros Hk. induction cs as [|c t IH]; intros s Hi Hg Hc Hq Hb.
  - exists s, []. repeat split; reflexivity.
  - assert (Hc1 := Forall_inv Hc). assert (Hq1 := Forall_inv Hq).
    assert (Nf : c = DFmInit -> det = false) by (intros ->; destruct Hq1).
    destruct (perform_does r Hr det c s Hi Hg Hc1 Nf (Forall_inv Hb)) as (s1 & o1 & (E1 & S1 & P1) & _ & I1 & G1).
    destruct (IH s1 I1 G1 (Forall_inv_tail Hc) (Forall_inv_tail Hq) (Forall_inv_tail Hb)) as (s2 & o2 & E2 & S2 & P2 & X2).
    exists s2, (o1 ++ o2). unfold perform_all. cbn [runM]. unfold bind. rewrite E1. fold (perform_all r det t). rewrite E2.
    split; [reflexivity|]. rewrite !filter_app.
    assert (K : synth_calls r s c = small_sops r c /\ psg_calls c = [] /\ other_by r s c = small_events r c).
    { destruct c; try contradiction Hq1; cbn in Hq1; try (destruct Hq1 as [-> _]); destruct Hk as [-> | ->]; repeat split; reflexivity. }
    destruct K as (K1 & K2 & K3). rewrite K1 in S1. rewrite K2 in P1. cbn in P1. injection P1 as P1 P3.
    split; [|split].
    + cbn [flat_map]. unfold synth_run in *. rewrite runM_app. unfold bind. rewrite S1, S2. reflexivity.
    + rewrite <- P3, P2. reflexivity.
    + cbn [flat_map]. rewrite X2. f_equal. rewrite <- K3. eapply perform_others; [exact Hr|exact Hi|exact Hc1|exact E1|exact Nf].
Qed.
Lemma small_performed r hw mem ops m s0 tr0 s' cs k n : history r hw mem ops s0 tr0 -> mop_ok m -> steps (a_midi s0) m s' cs ->
  small_voice k -> Forall (small_call k n) cs -> Forall (fun c => ~ beyond_samples c) cs ->
  exists s o, history r hw mem (ops ++ [AMsg m]) s (tr0 ++ o) /\ a_midi s = s' /\
    synth_run (flat_map (small_sops r) cs) (v_synth (a_dev s0)) = Done tt (v_synth (a_dev s)) (filter fm_event o) /\
    filter psg_event o = [] /\ filter other_event o = flat_map (small_events r) cs /\ Forall dcall_ok cs.
Proof.
  intros H Hm St Hk Q Nb. destruct (history_played _ _ _ _ _ _ H) as ((Hs & Hi & Hg) & _). assert (Hr := proj1 H).
  assert (Hc := proj2 (step_ok _ _ _ _ Hs Hm St)).
  destruct (small_run r Hr (detected s0) k n cs Hk _ Hi Hg Hc Q Nb) as (d & o & E & S & P & X).
  exists (mkApp s' d (a_x7 s0) (a_pro s0)), o. split; [|auto 8].
  apply (history_snoc _ _ _ _ (AMsg m) _ _ _ _ H Hm). cbn [app_step]. unfold app_midi, steps in *. rewrite St, E. reflexivity.
Qed.
Lemma only_others o l : filter fm_event o = [] -> filter psg_event o = [] -> filter other_event o = l -> o = l.
Proof.
  revert l. induction o as [|e t IH]; intros l F P X; [exact X|]. cbn [filter] in F, P, X. unfold other_event in X at 1.
  destruct (fm_event e); [discriminate|]. destruct (psg_event e); [discriminate|]. cbn [orb negb] in X. subst l. f_equal. apply IH; auto.
Qed.

(** ** Notes on a channel of a fixed assignment *)
Lemma static_note r hw mem ops c p v s0 tr0 s' cs : history r hw mem ops s0 tr0 -> 0 <= c < 13 -> MidiSpec.seven p -> 1 <= v <= 127 ->
  without remaps ops -> tn_glide (tuned (map message ops)) c = false ->
  (length (filter (fun k => Z.eqb (fst k) c) (held (map message ops))) < 10)%nat ->
  0 <= bent (map message ops) c p -> 0 <= pitched (map message ops) c p ->
  steps (a_midi s0) (MNoteOn c p v) s' cs ->
  exists d d1 m, dev_at (a_midi s0) c d /\ d_ops d1 = d_ops d /\ d_num d1 = d_num d /\ shape_ok c d /\
    dev_at s' c (started m c p d1) /\ ch_at s' c m /\ cs = start_calls m c p v d1 /\
    cs = tuneup m c p d1 ++ [DNoteOn (d_ops d) (d_num d) (pitched (map message ops) c p / 100) (pitched (map message ops) c p mod 100) v].
Proof.
  intros H0 Hc Hp Hv W G K L1 L2 St.
  assert (Om : mop_ok (MNoteOn c p v)) by (cbn; unfold is_chan, MidiSpec.seven in *; lia).
  destruct (history_played _ _ _ _ _ _ H0) as ((Hs & _) & cs0 & B & _).
  assert (S := static_before _ _ _ B W).
  destruct (ok_ch_get (a_midi s0) c Hs ltac:(unfold is_chan; lia)) as (m0 & Hm0 & Hok0).
  destruct (zget_in_range (md_dev (a_midi s0)) c) as [d Hd]; [destruct Hs as [-> _]; lia|].
  assert (Po : m_porta m0 = false).
  { destruct (tune_boot _ _ _ B) as [_ (_ & T)]. destruct (T c m0 Hm0) as [T1 _]. rewrite T1. exact G. }
  assert (Kl : (length (keys (m_np m0)) < 10)%nat).
  { assert (X := held_stack _ _ _ B c m0 Hm0). unfold held_on in X. rewrite map_length in X. change (held (MCallback true :: map message ops)) with (held (map message ops)) in X. lia. }
  destruct (static_starts _ c p v _ _ m0 d Hs ltac:(unfold is_chan; lia) Hp ltac:(lia) S Hd Hm0 Kl Po St) as (st & E1).
  assert (NE : cs <> []) by (rewrite E1; unfold start_calls; destruct (_ && _); discriminate).
  destruct (note_calls _ _ _ _ _ _ Hs Om ltac:(lia) St NE) as (i & d1 & m & Hi & Sh & Hok & Hd1 & E2 & Hch & _).
  destruct (ok_dev _ _ _ Hs Hd) as [(Shd & _) _].
  assert (Q := E2). rewrite E1, !start_calls_split in Q. apply app_inj_tail in Q as [_ Q]. injection Q as Q1 Q2 _ _. cbn [d_ops d_num d_set_glide] in Q1, Q2.
  assert (Ei : i = c).
  { destruct Sh as (S1 & S2 & S3), Shd as (T1 & T2 & T3). rewrite <- Q1, <- Q2 in *.
    destruct (Z_lt_dec i 6) as [A|A]; [destruct (S1 A) as [X1 X2]|destruct (Z_lt_dec i 10) as [A'|A']; [destruct S2 as [X1 X2]; [lia|]|destruct S3 as [X1 X2]; [lia|]]];
    (destruct (Z_lt_dec c 6) as [B1|B1]; [destruct (T1 B1) as [Y1 Y2]|destruct (Z_lt_dec c 10) as [B1'|B1']; [destruct T2 as [Y1 Y2]; [lia|]|destruct T3 as [Y1 Y2]; [lia|]]]);
    try lia; repeat match goal with X : _ \/ _ |- _ => destruct X | X : _ /\ _ |- _ => destruct X end; congruence || lia. }
  subst i.
  exists d, d1, m. split; [exact Hd|]. split; [auto|]. split; [auto|]. split; [exact Shd|]. split; [exact Hd1|]. split; [exact Hch|]. split; [exact E2|].
  assert (B1 : boots_to (MCallback true :: map message (ops ++ [AMsg (MNoteOn c p v)])) s' (cs0 ++ cs)).
  { rewrite map_app. apply (boots_snoc (MCallback true :: map message ops) (MNoteOn c p v) _ _ _ _ B Om St). }
  destruct (note_eff ops c p v (mkApp s' (a_dev s0) (a_x7 s0) (a_pro s0)) d1 m _ Hch Hok Hp B1 L1 L2) as [F1 F2].
  rewrite E2, start_calls_split, F1, F2, Q1, Q2. reflexivity.
Qed.
Lemma tuneup_small m c p d : Forall (small_call (d_ops d) (d_num d)) (tuneup m c p d) /\ Forall (fun c => ~ beyond_samples c) (tuneup m c p d).
Proof.
  assert (X : Forall (fun x => small_call (d_ops d) (d_num d) x /\ ~ beyond_samples x) (tuneup m c p d)).
  { unfold tuneup, sync_calls, prepared. cbn [Datatypes.app]. apply Forall_app. split; [|constructor; [split; [exact Logic.I|intros (? & ? & ? & ? & [=] & _)]|]].
    2:{ repeat (apply Forall_app; split).
    all: try (destruct (_ =? _)); try constructor; try (constructor); cbn; try (repeat split; reflexivity); try (intros (? & ? & ? & ? & [=] & _)). }
    destruct (_ && _); constructor; [|constructor]. split; [split; reflexivity|intros (? & ? & ? & ? & [=] & _)]. }
  split; (eapply Forall_impl; [|exact X]); intros a [A B]; assumption.
Qed.

(** ** When the sixth channel plays samples *)
Lemma dac_served c v s : length (md_dev s) = 13%nat -> static_map s -> md_nogm s = false -> 0 <= c < 13 ->
  forall s' o, fm_parameter_cc c 78 v s = WDone s' o -> o <> [].
Proof.
  intros Hl [_ Hst] Hg Hc. unfold fm_parameter_cc.
  assert (HI : forall i, In i (zseq 0 13) -> 0 <= i < 13) by (intros i Hi; apply in_zseq in Hi; lia).
  assert (HC : In c (zseq 0 13)) by (apply in_zseq; lia).
  revert HI HC. generalize (zseq 0 13). induction l as [|i t IH]; intros HI HC s' o E; [destruct HC|]. cbn [fm_parameter_loop] in E.
  destruct (zget_in_range (md_dev s) i) as [d Hd]; [rewrite Hl; apply HI; left; reflexivity|].
  rewrite (wget_Some _ _ _ Hd), wbind_ret in E. rewrite (Hst i d Hd) in E.
  destruct (Z.eqb_spec i c) as [->|Ni].
  - unfold set_fm_chan_parameter in E. rewrite Z.eqb_refl, Hg in E. unfold enable_dac in E.
    destruct (zget_in_range (md_dev s) 5) as [d5 Hd5]; [rewrite Hl; lia|]. rewrite (wget_Some _ _ _ Hd5), wbind_ret in E. cbv zeta in E.
    unfold wbind at 1 in E. destruct (wbind (wemit _) _) as [s1 o1|f] eqn:E1; [|discriminate].
    cbn in E1. injection E1 as <- <-. match type of E with context [fm_parameter_loop ?a ?b ?x ?y ?z] => destruct (fm_parameter_loop a b x y z); [|discriminate E] end. cbn in E. injection E as _ <-. cbn. discriminate.
  - rewrite wbind_ret in E. apply (IH ltac:(intros j Hj; apply HI; right; exact Hj) ltac:(destruct HC; [congruence|assumption]) _ _ E).
Qed.
Lemma atom_ops op i d cs d' : ~ because (is_cc 78) op -> ~ may_init op d -> datom op i d cs d' -> d_ops d' = d_ops d.
Proof.
  intros N I A. destruct A; try reflexivity.
  - unfold pressed. destruct (back c d); reflexivity.
  - contradiction.
  - contradiction.
Qed.
Definition kind (b : bool) : vtable := if b then VDac else VFm.
Definition samp_inv (h : samp) (s : midi) : Prop :=
  static_map s /\ md_nogm s = negb (sa_edit h) /\ forall d, dev_at s 5 d -> d_ops d = kind (sa_on h).
Lemma range_half v : MidiSpec.seven v -> negb (RANGE v 2 =? 0) = (64 <=? v).
Proof.
  intros H. unfold MidiSpec.seven in H.
  assert (X : forallb (fun v => Bool.eqb (negb (RANGE v 2 =? 0)) (64 <=? v)) (zseq 0 128) = true) by (vm_compute; reflexivity).
  rewrite forallb_forall in X. apply Bool.eqb_prop, X, in_zseq. lia.
Qed.
Lemma samp_edit h op : sa_edit (samp_after h op) = edit_after (sa_edit h) op.
Proof.
  destruct op as [c p v|c p|c k v|c p|c b|data| | |cb]; try reflexivity.
  - cbn [samp_after edit_after]. destruct (_ && _); [reflexivity|]. destruct (_ && _); reflexivity.
  - cbn [samp_after edit_after]. destruct data as [|x [|y [|z [|k [|a [|? t]]]]]]; try reflexivity. destruct (_ && _); reflexivity.
Qed.
Lemma samp_on_sysex h data : sa_on (samp_after h (MSysex data)) = sa_on h.
Proof. cbn [samp_after]. destruct data as [|x [|y [|z [|k [|a [|? t]]]]]]; try reflexivity. destruct (_ && _); reflexivity. Qed.
Lemma samp_step op h s s' o : ~ remaps op -> mop_ok op -> midi_ok s -> samp_inv h s -> steps s op s' o -> midi_ok s' -> samp_inv (samp_after h op) s'.
Proof.
  intros Hr Hop Hs (I1 & I2 & I3) E Hs'.
  split; [exact (static_step op tt s s' o Hr Hop Hs I1 E Hs')|].
  split; [rewrite samp_edit; exact (edit_step op _ s s' o Logic.I Hop Hs I2 E Hs')|].
  assert (Same : ~ is_cc 78 op -> ~ is_cc 121 op -> op <> MReset -> forall d, dev_at s' 5 d -> d_ops d = kind (sa_on h)).
  { intros N1 N2 N3.
    refine (moves_inv (fun (t : unit) _ => t) (Some op) (fun _ => True) (fun l _ => forall d, zget l 5 = Some d -> d_ops d = kind (sa_on h)) _ _ _ _ _
      (step_moves op s s' o Hop Hs E) _ tt I3); [| |apply Forall_forall; auto].
    - intros l t j d cs d' J Hj A _ x Hx. destruct (Z.eq_dec j 5) as [->|Nj].
      + rewrite zget_zset_same in Hx by exact (zget_Some _ _ _ Hj). injection Hx as <-. rewrite (atom_ops (Some op) 5 d cs d'); [exact (J d Hj)| | |exact A].
        * intros (m & [= <-] & X). exact (N1 X).
        * intros [X|[(m & [= <-] & X)|[X|[(m & [= <-] & X) _]]]]; [discriminate|exact (N2 X)|congruence|]. apply Hr. right; right; right. exact X.
      + rewrite zget_zset_other in Hx by congruence. exact (J x Hx).
    - intros l t c _ _ J. exact J. }
  destruct op as [c p v|c p|c k v|c p|c b|data| | |cb];
    try (apply Same; [intros (x & y & [=])|intros (x & y & [=])|discriminate]).
  - destruct Hop as (Hc & Hk & Hv). unfold steps in E. cbn [midi_step] in E.
    destruct (Z.eq_dec k 78) as [->|N78].
    + destruct (ok_ch_get _ _ Hs Hc) as (m & Hm & _).
      assert (X : midi_cc c 78 v s = wbind (wbind (wget (md_ch s) c) (fun _ => fm_parameter_cc c 78 v s)) (fun s1 => wbind (notify_change s1 2 c 78 v) (fun _ => wret s1))) by reflexivity.
      rewrite X in E. clear X. rewrite (wget_Some _ _ _ Hm), wbind_ret in E.
      destruct (fm_cc_dac c v s ltac:(apply Hs)) as (devs & o1 & E1 & D). assert (Sv := dac_served c v s ltac:(apply Hs) I1). rewrite E1 in E.
      assert (Es : md_dev s' = devs).
      { unfold wbind at 1 in E. unfold notify_change in E. destruct (md_cb _); cbn in E; injection E as <- _; reflexivity. }
      unfold dev_at. rewrite Es. cbn [samp_after]. rewrite Z.eqb_refl. cbn [andb].
      destruct D as [[-> ->]|(-> & G & _ & _ & i & d0 & Hi & Hm0)].
      * assert (B : (c <? 13) && sa_edit h = false).
        { destruct (Z.ltb_spec c 13); [|reflexivity]. destruct (sa_edit h) eqn:Eh; [|reflexivity]. exfalso. unfold is_chan in Hc.
          apply (Sv I2 ltac:(lia) _ _ E1). reflexivity. }
        rewrite B. exact I3.
      * assert (Ci := proj2 I1 i d0 Hi). assert (Hi' := zget_Some _ _ _ Hi). rewrite (proj1 Hs) in Hi'. rewrite Hm0 in Ci. subst i.
        assert (Sh : sa_edit h = true) by (destruct (sa_edit h); [reflexivity|rewrite I2 in G; discriminate]).
        replace (c <? 13) with true by (symmetry; apply Z.ltb_lt; lia). rewrite Sh. cbn [andb sa_on].
        intros d Hd. unfold dac_devs in Hd. destruct (zget_in_range (md_dev s) 5) as [d5 Hd5]; [rewrite (proj1 Hs); lia|].
        rewrite Hd5, zget_zset_same in Hd by exact (zget_Some _ _ _ Hd5). injection Hd as <-. cbn [d_ops d_set_ops]. rewrite range_half by exact Hv. reflexivity.
    + destruct (Z.eq_dec k 121) as [->|N121].
      * cbn [samp_after]. replace (121 =? 78) with false by reflexivity. cbn [andb]. rewrite Z.eqb_refl. cbn [andb].
        assert (X : midi_cc c 121 v s = wbind (wbind (wget (md_ch s) c) (fun _ => resetAllControllers c s)) (fun s1 => wbind (notify_change s1 2 c 121 v) (fun _ => wret s1))) by reflexivity.
        rewrite X in E. clear X. destruct (ok_ch_get _ _ Hs Hc) as (m & Hm & _). rewrite (wget_Some _ _ _ Hm), wbind_ret in E.
        rewrite (resetAll_eq _ _ Hs Hc) in E.
        assert (Es : md_dev s' = assign_modes (md_dyn s) 0 (mapi (init_dev (zset (md_ch s) c (init_midi_channel c)) (fun d => d_midi d =? c)) 0 (md_dev s))).
        { unfold wbind at 1 in E. unfold notify_change in E. destruct (md_cb _); cbn in E; injection E as <- _; reflexivity. }
        unfold dev_at. rewrite Es. intros d Hd. rewrite zget_assign, zget_mapi in Hd. destruct (zget (md_dev s) 5) as [d5|] eqn:Hd5; [|discriminate].
        injection Hd as <-. cbn [d_ops d_set_midi]. unfold init_dev. rewrite (proj2 I1 5 d5 Hd5), (Z.eqb_sym c 5).
        destruct (5 =? c); [reflexivity|]. exact (I3 d5 Hd5).
      * cbn [samp_after]. destruct (Z.eqb_spec k 78); [contradiction|]. destruct (Z.eqb_spec k 121); [contradiction|]. cbn [andb].
        apply Same; [intros (x & y & [=]); contradiction|intros (x & y & [=]); contradiction|discriminate].
  - rewrite samp_on_sysex. apply Same; [intros (x & y & [=])|intros (x & y & [=])|discriminate].
  - destruct (reset_devs _ _ _ Hs E) as (_ & _ & R). intros d Hd. destruct (R 5 d Hd) as (d0 & _ & ->). reflexivity.
Qed.
Lemma sampling_boot ms s o : Forall (fun op => ~ remaps op) ms -> boots_to ms s o -> forall d, dev_at s 5 d -> d_ops d = kind (sampling ms).
Proof.
  intros F B. apply (boot_induction samp_after (mkSamp true false) (fun op => ~ remaps op) samp_inv) in B; [apply B| |exact samp_step|exact F].
  split; [exact static_booted|]. split; [reflexivity|]. intros d Hd. injection Hd as <-. reflexivity.
Qed.

(** ** C100: samples *)
Lemma held_sublist ops s o : boots_to ops s o -> forall c m, ch_at s c m -> sublist (rev (keys (m_np m))) (held_on c (held ops)).
Proof.
  intros B. apply (boot_induction held_after [] (fun _ => True) stack_inv) with (o := o); [| |apply Forall_forall; intros; exact Logic.I|exact B].
  - intros b x Hx. destruct (booted_ch _ _ Hx) as (-> & _). constructor.
  - intros op h s0 s' o' _ H2 H3 H4 H5 _. apply (stack_step op h s0 s' o'); assumption.
Qed.
Lemma flat_map_one {A B} (f : A -> list B) l i x : zget l i = Some x -> (forall j y, zget l j = Some y -> j <> i -> f y = []) -> flat_map f l = f x.
Proof.
  revert i. induction l as [|a t IH]; intros i Hi Hn; [rewrite zget_nil in Hi; discriminate|]. cbn [flat_map].
  destruct (Z.eq_dec i 0) as [->|Ni].
  - cbn in Hi. injection Hi as ->. replace (flat_map f t) with (@nil B); [apply app_nil_r|]. symmetry.
    assert (Q : forall y, In y t -> f y = []).
    { intros y Hy. destruct (In_zget _ _ Hy) as [j Hj]. assert (R := zget_Some _ _ _ Hj). apply (Hn (j + 1)); [|lia].
      rewrite zget_cons. replace (j + 1 =? 0) with false by (symmetry; apply Z.eqb_neq; lia). replace (j + 1 - 1) with j by lia. exact Hj. }
    clear - Q. induction t as [|y t IH]; [reflexivity|]. cbn [flat_map]. rewrite (Q y (or_introl eq_refl)), IH; [reflexivity|]. intros z Hz. apply Q. right. exact Hz.
  - assert (R := zget_Some _ _ _ Hi). rewrite (Hn 0 a eq_refl) by lia. cbn [Datatypes.app]. apply (IH (i - 1)).
    + rewrite zget_cons in Hi. destruct (Z.eqb_spec i 0); [contradiction|exact Hi].
    + intros j y Hj Nj. assert (R' := zget_Some _ _ _ Hj). apply (Hn (j + 1)); [|lia]. rewrite zget_cons. replace (j + 1 =? 0) with false by (symmetry; apply Z.eqb_neq; lia). replace (j + 1 - 1) with j by lia. exact Hj.
Qed.
Lemma sample_events r key : rom_ok r -> 0 <= key < 128 ->
  match zget (rom_pcm r) key with Some (Some smp) => [EvPcmStart smp] | _ => [] end = sample_start r key.
Proof.
  intros Hr Hk. unfold sample_start. destruct (zget_in_range (rom_pcm r) key) as [x Hx]; [destruct Hr as (_ & _ & _ & _ & _ & ->); lia|]. rewrite Hx.
  rewrite (zget_nth _ _ None) in Hx by exact (zget_Some _ _ _ Hx). injection Hx as ->. reflexivity.
Qed.
Section Sample.
Context (r : rom) (hw : hardware) (mem : list Z) (ops : list aop) (p v : Z) (s0 : app) (tr0 : list event).
Context (H0 : history r hw mem ops s0 tr0) (Hp : MidiSpec.seven p) (Hv : 1 <= v <= 127) (W : without remaps ops).
Local Notation ms := (map message ops).
Context (On : sampling ms = true) (G : tn_glide (tuned ms) 5 = false).
Context (K : (length (filter (fun k => Z.eqb (fst k) 5) (held ms)) < 10)%nat).
Context (L1 : 0 <= bent ms 5 p) (L2 : 0 <= pitched ms 5 p) (L3 : pitched ms 5 p / 100 < 128).

Lemma sample_kind d : dev_at (a_midi s0) 5 d -> d_ops d = VDac.
Proof.
  intros Hd. destruct (history_played _ _ _ _ _ _ H0) as (_ & cs0 & B & _).
  assert (X : d_ops d = kind (sampling (MCallback true :: ms))).
  { apply (sampling_boot _ _ _) with (2 := B); [|exact Hd]. apply Forall_forall. intros m Hin. apply (plain_messages remaps ops); [| |exact W|exact Hin].
    - intros [(a & b & [=])|[(a & [=])|[(a & [=])|(t & [=])]]].
    - intros [(a & b & [=])|[(a & [=])|[(a & [=])|(t & [=])]]]. }
  change (sampling (MCallback true :: ms)) with (sampling ms) in X. rewrite On in X. exact X.
Qed.
Lemma sample_begins : exists s m d1, history r hw mem (ops ++ [AMsg (MNoteOn 5 p v)]) s (tr0 ++ sample_start r (pitched ms 5 p / 100)) /\
  dev_at (a_midi s) 5 (started m 5 p d1) /\ ch_at (a_midi s) 5 m /\ d_ops d1 = VDac /\ v_synth (a_dev s) = v_synth (a_dev s0) /\
  steps (a_midi s0) (MNoteOn 5 p v) (a_midi s) (start_calls m 5 p v d1).
Proof.
  assert (Om : mop_ok (MNoteOn 5 p v)) by (cbn; unfold is_chan, MidiSpec.seven in *; lia).
  destruct (history_played _ _ _ _ _ _ H0) as ((Hs & _) & cs0 & B & _).
  destruct (midi_step (MNoteOn 5 p v) (a_midi s0)) as [s1 cs|f] eqn:St.
  2:{ exfalso. assert (X := midi_step_ok (MNoteOn 5 p v) _ Hs Om). rewrite St in X. destruct X as [_ (y & [=] & _)]. }
  change (steps (a_midi s0) (MNoteOn 5 p v) s1 cs) in St.
  destruct (static_note r hw mem ops 5 p v s0 tr0 s1 cs H0 ltac:(lia) Hp Hv W G K L1 L2 St) as (d & d1 & m & Hd & O1 & O2 & Sh & Hd1 & Hm & Est & Ecs).
  assert (Kd := sample_kind d Hd). rewrite Kd in O1, Ecs. destruct (tuneup_small m 5 p d1) as [T1 T2]. rewrite O1, O2 in T1.
  assert (Q : Forall (small_call VDac (d_num d)) cs).
  { rewrite Ecs. apply Forall_app. split; [exact T1|]. constructor; [split; reflexivity|constructor]. }
  assert (Nb : Forall (fun c => ~ beyond_samples c) cs).
  { rewrite Ecs. apply Forall_app. split; [exact T2|]. constructor; [|constructor]. intros (n & q & ce & w & [= _ <- _ _] & X). lia. }
  destruct (small_performed r hw mem ops _ s0 tr0 s1 cs VDac (d_num d) H0 Om St (or_introl eq_refl) Q Nb) as (s & o & Hh & Em & S & P & X & _).
  assert (Z1 : forall l, Forall (small_call VDac (d_num d)) l -> flat_map (small_sops r) l = []).
  { induction l as [|a t IH]; intros F; [reflexivity|]. cbn [flat_map]. rewrite IH by exact (Forall_inv_tail F). assert (A := Forall_inv F). clear - A.
    destruct a; try contradiction A; cbn in A; try (destruct A as [-> _]); reflexivity. }
  rewrite (Z1 cs Q) in S. cbn in S. injection S as S1 S2.
  assert (Z2 : flat_map (small_events r) (tuneup m 5 p d1) = []).
  { clear - O1. unfold tuneup, sync_calls, prepared. rewrite !flat_map_app.
    repeat match goal with |- context [flat_map _ (if ?b then _ else _)] => destruct b end; cbn; rewrite ?O1; reflexivity. }
  assert (Eo : o = sample_start r (pitched ms 5 p / 100)).
  { apply only_others; [auto|exact P|]. rewrite X, Ecs, flat_map_app, Z2. cbn [flat_map Datatypes.app small_events]. rewrite app_nil_r. apply sample_events; [exact (proj1 H0)|].
    split; [apply Z.div_pos; lia|exact L3]. }
  rewrite Eo in Hh. exists s, m, d1. rewrite Em. rewrite Est in St. auto 8.
Qed.
(** The key released, when it was the only one held. *)
Context (K0 : filter (fun k => Z.eqb (fst k) 5) (held ms) = []).
Lemma sample_ends : exists s, history r hw mem (ops ++ [AMsg (MNoteOn 5 p v)] ++ [AMsg (MNoteOff 5 p)]) s (tr0 ++ sample_start r (pitched ms 5 p / 100) ++ [EvPcmStop]).
Proof.
  destruct sample_begins as (s & m & d1 & H & Hd & Hm & O1 & _ & St). rewrite !app_assoc.
  destruct (history_played _ _ _ _ _ _ H) as ((Hs & _) & cs0 & B & _).
  assert (Om : mop_ok (MNoteOff 5 p)) by (cbn; unfold is_chan, MidiSpec.seven in *; lia).
  destruct (midi_note_off_eq 5 p (a_midi s) m Hs ltac:(unfold is_chan; lia) Hm) as (st & _ & _ & E).
  assert (S : static_map (a_midi s)).
  { apply (static_before _ _ _ B). intros x Hin. apply in_app_or in Hin as [Hin|[[= <-]|[]]]; [exact (W x Hin)|].
    intros [(a & b & [=])|[(a & [=])|[(a & [=])|(t & [=])]]]. }
  assert (Nx : off_next m p = 0).
  { assert (X := held_sublist _ _ _ B 5 m Hm).
    assert (Y : held_on 5 (held (MCallback true :: map message (ops ++ [AMsg (MNoteOn 5 p v)]))) = [p]).
    { rewrite map_app. change (MCallback true :: ms ++ map message [AMsg (MNoteOn 5 p v)]) with ((MCallback true :: ms) ++ [MNoteOn 5 p v]).
      unfold held. rewrite fold_left_app. cbn [fold_left held_after]. replace (v =? 0) with false by (symmetry; apply Z.eqb_neq; lia).
      change (fold_left held_after ms []) with (held ms). unfold held_on. cbn [filter fst]. rewrite Z.eqb_refl. cbn [map snd]. rewrite K0. reflexivity. }
    rewrite Y in X. unfold off_next, off_stack.
    assert (Z1 : filter (fun x => negb (x =? p)) (keys (m_np m)) = []).
    { rewrite <- (rev_involutive (keys (m_np m))). inversion X as [l Q|a x l Q|x a l Q]; subst.
      - reflexivity.
      - inversion Q; subst. reflexivity.
      - inversion Q; subst. cbn. rewrite Z.eqb_refl. reflexivity. }
    rewrite Z1. reflexivity. }
  destruct (started_note m 5 p d1) as (D1 & D2 & D3 & _).
  assert (D4 : d_glide (started m 5 p d1) = 0).
  { destruct (history_played _ _ _ _ _ _ H0) as ((Hs0 & _) & cs1 & B0 & _).
    assert (Om1 : mop_ok (MNoteOn 5 p v)) by (cbn; unfold is_chan, MidiSpec.seven in *; lia).
    assert (Ne : start_calls m 5 p v d1 <> []) by (unfold start_calls; destruct (_ && _); discriminate).
    exact (static_glide (a_midi s0) (a_midi s) 5 p v _ _ Hs0 Om1 ltac:(lia) (static_before _ _ _ B0 W) ltac:(lia) St Ne Hd). }
  assert (Fb : falls_back (a_midi s) m 5 p = false) by (unfold falls_back; rewrite Nx, andb_false_r; reflexivity).
  assert (Ec : flat_map (note_off_calls (a_midi s) m 5 p) (md_dev (a_midi s)) = [DNoteOff VDac (d_num (started m 5 p d1)) p]).
  { assert (U : note_off_calls (a_midi s) m 5 p (started m 5 p d1) = [DNoteOff VDac (d_num (started m 5 p d1)) p]).
    { unfold note_off_calls, off_calls, serves_note, isChannelPlayingNote. rewrite Fb, D1, D2, D3, D4. replace (negb (0 =? 0)) with false by reflexivity. rewrite !Z.eqb_refl. cbn [andb].
      unfold started. assert (Os : d_ops (synced m (prepared 5 p d1)) = VDac) by (unfold synced, prepared; repeat match goal with |- context [if ?b then _ else _] => destruct b end; exact O1). rewrite Os. reflexivity. }
    rewrite <- U. apply flat_map_one with (i := 5); [exact Hd|].
    intros j x Hx Nj. unfold note_off_calls, off_calls, serves_note. rewrite Fb, (proj2 S j x Hx).
    destruct (Z.eqb_spec j 5); [contradiction|]. reflexivity. }
  rewrite Ec in E.
  destruct (small_performed r hw mem _ (MNoteOff 5 p) s _ _ _ VDac (d_num (started m 5 p d1)) H Om E (or_introl eq_refl)) as (s2 & o & Hh & Em & Sy & P & X & _).
  { constructor; [split; reflexivity|constructor]. }
  { constructor; [intros (? & ? & ? & ? & [=] & _)|constructor]. }
  cbn in Sy. injection Sy as _ Sy. cbn [flat_map small_events Datatypes.app] in X.
  rewrite (only_others o _ (eq_sym Sy) P X) in Hh. exists s2. exact Hh.
Qed.
End Sample.

(** ** C101: the voices of special mode *)
Lemma special_writes r q p ce : 0 <= q < 3 -> 11 <= p <= 106 -> 0 <= ce < 100 ->
  exists hi lo, (forall s, writes (SSpecialPitch q (pitch_to_octave p) (freq_of r p ce)) s = [(0, fst (special_regs q), hi); (0, snd (special_regs q), lo)]) /\
    ((hi / 8) mod 8, (hi mod 8) * 256 + lo) = fm_note r p ce.
Proof.
  intros Hq Hp Hce. destruct (fm_fields (rom_pal r) p ce Hp Hce) as (f & E & Hf & Ho).
  assert (Ef : freq_of r p ce = f) by (unfold freq_of; rewrite E; reflexivity). rewrite Ef.
  destruct (pitch_bytes (pitch_to_octave p) f Ho Hf) as [P1 P2].
  exists (u8 (Z.lor (Z.shiftr f 8) (Z.shiftl (pitch_to_octave p) 3))), (u8 f). split.
  - intros s. cbn [writes]. assert (Q : q = 0 \/ q = 1 \/ q = 2) by lia. destruct Q as [-> | [-> | ->]]; reflexivity.
  - rewrite P1, P2. unfold fm_note. rewrite Ef, <- octave_key. rewrite (Z.mod_small (pitch_to_octave p) 8) by exact Ho. rewrite (Z.mod_small f 2048) by exact Hf. reflexivity.
Qed.
Lemma tuneup_special r m c p d : d_ops d = VSm -> exists l, flat_map (small_sops r) (tuneup m c p d) = l /\ Forall (fun op => exists x y, op = SSpecialPitch (d_num d) (pitch_to_octave x) (freq_of r x y)) l /\
  flat_map (small_events r) (tuneup m c p d) = [].
Proof.
  intros O. eexists. split; [reflexivity|]. unfold tuneup, sync_calls. rewrite !flat_map_app.
  unfold prepared; cbn [d_ops d_num d_midi d_vol d_pan d_prog d_bend d_set_pitch d_set_cents d_set_on d_set_midi].
  repeat match goal with |- context [flat_map _ (if ?b then _ else _)] => destruct b end; cbn; rewrite ?O; split; repeat constructor; eauto.
Qed.

Lemma runs_same l : forall s s' o, synth_ok s -> Forall sop_ok l -> (forall op, In op l -> post op s = s) -> synth_run l s = Done tt s' o ->
  s' = s /\ ymw o = flat_map (fun op => writes op s) l.
Proof.
  induction l as [|op t IH]; intros s s' o Hs Ho Hp E.
  - cbn in E. injection E as <- <-. split; reflexivity.
  - unfold synth_run in E. cbn [runM] in E. apply bind_inv in E as ([] & s1 & o1 & o2 & E1 & E2 & ->).
    destruct (step_runs op s Hs (Forall_inv Ho)) as (o3 & R1 & R2 & _). rewrite E1 in R1. injection R1 as R1 R3. subst o3.
    rewrite (Hp op (or_introl eq_refl)) in R1. subst s1.
    destruct (IH s s' o2 Hs (Forall_inv_tail Ho) ltac:(intros x Hx; apply Hp; right; exact Hx) E2) as [-> X].
    split; [reflexivity|]. cbn [flat_map]. rewrite <- X, <- R2. apply ymw_app.
Qed.
Section Special.
Context (r : rom) (hw : hardware) (mem : list Z) (ops : list aop) (s0 : app) (tr0 : list event).
Context (H0 : history r hw mem ops s0 tr0) (W : without remaps ops).
Local Notation ms := (map message ops).

Theorem special_begins q p v : 0 <= q < 3 -> MidiSpec.seven p -> 1 <= v <= 127 -> tn_glide (tuned ms) (10 + q) = false ->
  (length (filter (fun k => Z.eqb (fst k) (10 + q)%Z) (held ms)) < 10)%nat ->
  0 <= bent ms (10 + q) p -> 0 <= pitched ms (10 + q) p -> 11 <= pitched ms (10 + q) p / 100 <= 106 ->
  exists s o, history r hw mem (ops ++ [AMsg (MNoteOn (10 + q) p v)]) s (tr0 ++ o) /\
    special_freq (ym_regs (tr0 ++ o)) q = Some (fm_note r (pitched ms (10 + q) p / 100) (pitched ms (10 + q) p mod 100)) /\
    (forall n, key_state (tr0 ++ o) n = key_state tr0 n) /\ Forall (special_write q) (ym_writes o) /\
    Forall (fun e => fm_event e = true) o /\
    (forall ch x vol, zget (s_chans (v_synth (a_dev s0))) 2 = Some ch -> zget (c_ops ch) q = Some x -> zget (s_vols (v_synth (a_dev s0))) 2 = Some vol ->
       chip_tl (ym_regs (tr0 ++ o)) 2 q =
       if is_carrier (c_alg ch) q then Some (expected_level (c_alg ch) vol q (expected_level (c_alg ch) v q (o_tl x))) else chip_tl (ym_regs tr0) 2 q).
Proof.
  intros Hq Hp Hv G K L1 L2 L3. set (c := 10 + q) in *. assert (Hc : 0 <= c < 13) by lia.
  assert (Om : mop_ok (MNoteOn c p v)) by (cbn; unfold is_chan, MidiSpec.seven in *; lia).
  destruct (history_played _ _ _ _ _ _ H0) as ((Hs & ((Hsy & _) & _) & _) & cs0 & B & _).
  destruct (midi_step (MNoteOn c p v) (a_midi s0)) as [s1 cs|f] eqn:St.
  2:{ exfalso. assert (X := midi_step_ok (MNoteOn c p v) _ Hs Om). rewrite St in X. destruct X as [_ (y & [=] & _)]. }
  change (steps (a_midi s0) (MNoteOn c p v) s1 cs) in St.
  destruct (static_note r hw mem ops c p v s0 tr0 s1 cs H0 Hc Hp Hv W G K L1 L2 St) as (d & d1 & m & Hd & O1 & O2 & Sh & Hd1 & Hm & Est & Ecs).
  destruct Sh as (_ & _ & S3). destruct S3 as [N1 N2]; [lia|]. replace (c - 10) with q in * by lia.
  rewrite N2 in O1. rewrite N1 in O2. rewrite N1, N2 in Ecs.
  destruct (tuneup_small m c p d1) as [T1 T2]. rewrite O1, O2 in T1.
  set (key := pitched ms c p / 100) in *. set (ce := pitched ms c p mod 100) in *. assert (Hce : 0 <= ce < 100) by (apply Z.mod_pos_bound; lia).
  assert (Q : Forall (small_call VSm q) cs).
  { rewrite Ecs. apply Forall_app. split; [exact T1|]. constructor; [split; reflexivity|constructor]. }
  assert (Nb : Forall (fun c => ~ beyond_samples c) cs).
  { rewrite Ecs. apply Forall_app. split; [exact T2|]. constructor; [|constructor]. intros (? & ? & ? & ? & [=] & _). }
  destruct (small_performed r hw mem ops _ s0 tr0 s1 cs VSm q H0 Om St (or_intror eq_refl) Q Nb) as (s & o & Hh & Em & S & P & X & Cok).
  destruct (tuneup_special r m c p d1 O1) as (l & El & Fl & Xl). rewrite O2 in Fl.
  rewrite Ecs, flat_map_app, Xl in X. cbn in X. rewrite Ecs, flat_map_app, El in S. cbn [flat_map small_sops] in S. rewrite app_nil_r in S.
  exists s, o. split; [exact Hh|].
  assert (Sok : Forall sop_ok (l ++ [SSpecialPitch q (pitch_to_octave key) (freq_of r key ce); SSpecialVolume q v])).
  { apply Forall_app. split.
    - eapply Forall_impl; [|exact Fl]. intros a (x & y & ->). cbn. split; [exact Hq|]. split; [apply octave_range|apply freq_of_range].
    - constructor; [|constructor; [|constructor]]; cbn.
      + split; [exact Hq|]. split; [apply octave_range|apply freq_of_range].
      + unfold is_op. lia. }
  assert (Pp : forall op, In op (l ++ [SSpecialPitch q (pitch_to_octave key) (freq_of r key ce); SSpecialVolume q v]) -> post op (v_synth (a_dev s0)) = v_synth (a_dev s0)).
  { intros op Hin. apply in_app_or in Hin as [Hin|[<-|[<-|[]]]]; [|reflexivity|reflexivity]. rewrite Forall_forall in Fl. destruct (Fl op Hin) as (x & y & ->). reflexivity. }
  destruct (runs_same _ _ _ _ Hsy Sok Pp S) as [_ Ws].
  assert (Yw : ymw o = ymw (filter fm_event o)) by (rewrite !ymw_writes; apply ym_writes_fm).
  destruct (special_writes r q key ce Hq L3 Hce) as (hi & lo & Wp & Wn).
  rewrite flat_map_app in Ws. cbn [flat_map] in Ws. rewrite Wp, app_nil_r in Ws.
  set (w0 := flat_map (fun op => writes op (v_synth (a_dev s0))) l) in *. set (w2 := writes (SSpecialVolume q v) (v_synth (a_dev s0))) in *.
  assert (F0 : Forall (special_write q) w0).
  { unfold w0. clear - Fl Hq. induction l as [|a t IH]; [constructor|]. cbn [flat_map]. apply Forall_app. split; [|exact (IH (Forall_inv_tail Fl))].
    destruct (Forall_inv Fl) as (x & y & ->). cbn [writes]. assert (Qc : q = 0 \/ q = 1 \/ q = 2) by lia. unfold special_write.
    destruct Qc as [-> | [-> | ->]]; (constructor; [|constructor; [|constructor]]); cbn; auto. }
  assert (F2 : Forall (fun w => fst (fst w) = 0 /\ snd (fst w) = oper_reg 64 2 q) w2).
  { unfold w2. cbn [writes]. destruct (is_output_operator _ _); constructor; [|constructor]. assert (Qc : q = 0 \/ q = 1 \/ q = 2) by lia.
    destruct Qc as [-> | [-> | ->]]; split; reflexivity. }
  assert (Wall : Forall (special_write q) (ymw o)).
  { rewrite Yw, Ws. apply Forall_app. split; [exact F0|]. apply Forall_app. split.
    - constructor; [|constructor; [|constructor]]; unfold special_write; cbn [fst snd]; auto.
    - eapply Forall_impl; [|exact F2]. intros w [A B']. unfold special_write. auto. }
  assert (Rg : fst (special_regs q) <> snd (special_regs q) /\ fst (special_regs q) <> oper_reg 64 2 q /\ snd (special_regs q) <> oper_reg 64 2 q /\
    168 <= snd (special_regs q) /\ 168 <= fst (special_regs q) /\ oper_reg 64 2 q <> 40).
  { assert (Qc : q = 0 \/ q = 1 \/ q = 2) by lia. destruct Qc as [-> | [-> | ->]]; cbn; repeat split; discriminate. }
  destruct Rg as (G1 & G2 & G3 & G4 & G5 & G6).
  split; [|split; [|split; [|split]]].
  - unfold special_freq. rewrite ym_regs_app, Yw, Ws. generalize (ym_regs tr0). intros y.
    assert (Tail : forall z reg, reg <> oper_reg 64 2 q -> rrun z w2 0 reg = z 0 reg).
    { intros z reg Nr. clear - F2 Nr. revert z. induction w2 as [|[[a b] e] t IH]; intros z; [reflexivity|]. unfold rrun in *. cbn [fold_left].
      rewrite (IH (Forall_inv_tail F2)). destruct (Forall_inv F2) as [_ A]. cbn in A. unfold rstep. cbn [fst snd]. destruct (Z.eqb_spec reg b); [congruence|]. rewrite andb_false_r. reflexivity. }
    rewrite !rrun_app. rewrite !Tail by assumption. unfold rrun at 1 3. cbn [fold_left]. unfold rstep. cbn [fst snd].
    rewrite !Z.eqb_refl. destruct (Z.eqb_spec (fst (special_regs q)) (snd (special_regs q))); [contradiction|]. cbn [andb]. rewrite Wn. reflexivity.
  - intros n. rewrite key_state_app. apply kw_free. intros w Hw. rewrite Forall_forall in Wall. destruct (Wall w Hw) as [_ [A|[A|A]]]; lia.
  - rewrite <- ymw_writes. exact Wall.
  - apply split_events; assumption.
  - intros ch x vl E1 E2 E3.
    assert (C2 : is_ch 2) by (unfold is_ch; lia). assert (Oq : is_op q) by (unfold is_op; lia).
    rewrite (zget_chn _ Hsy 2 C2) in E1. injection E1 as <-. rewrite (zget_oper _ q (chn_ok _ Hsy 2 C2) Oq) in E2. injection E2 as <-.
    assert (Ev : vol (v_synth (a_dev s0)) 2 = vl) by (unfold vol; unfold zget in E3; cbn in E3; apply nth_error_nth with (d := 0) in E3; exact E3).
    assert (Ht : 0 <= o_tl (opr (v_synth (a_dev s0)) 2 q) < 128) by apply (opr_ok _ 2 q Hsy C2 Oq).
    change (oper (chn (v_synth (a_dev s0)) 2) q) with (opr (v_synth (a_dev s0)) 2 q).
    assert (Ha : 0 <= c_alg (chn (v_synth (a_dev s0)) 2) < 8) by apply (chn_ok _ Hsy 2 C2).
    set (sy := v_synth (a_dev s0)) in *. rewrite <- Ev.
    assert (Keep : forall z l', Forall (fun w => snd (fst w) <> oper_reg 64 2 q) l' -> rrun z l' 0 (oper_reg 64 2 q) = z 0 (oper_reg 64 2 q)).
    { intros z l' F. revert z. induction l' as [|[[a b] e] t IH]; intros z; [reflexivity|]. unfold rrun in *. cbn [fold_left].
      rewrite (IH (Forall_inv_tail F)). assert (A := Forall_inv F). cbn in A. unfold rstep. cbn [fst snd]. destruct (Z.eqb_spec (oper_reg 64 2 q) b); [congruence|]. rewrite andb_false_r. reflexivity. }
    assert (Fw : Forall (fun w => snd (fst w) <> oper_reg 64 2 q) w0).
    { unfold w0. clear - Fl Hq. induction l as [|a t IH]; [constructor|]. cbn [flat_map]. apply Forall_app. split; [|exact (IH (Forall_inv_tail Fl))].
      destruct (Forall_inv Fl) as (x & y & ->). cbn [writes]. assert (Qc : q = 0 \/ q = 1 \/ q = 2) by lia.
      destruct Qc as [-> | [-> | ->]]; (constructor; [|constructor; [|constructor]]); cbn; discriminate. }
    assert (Keep' : rrun (ym_regs tr0) (w0 ++ [(0, fst (special_regs q), hi); (0, snd (special_regs q), lo)]) 0 (oper_reg 64 2 q) = ym_regs tr0 0 (oper_reg 64 2 q)).
    { apply Keep. apply Forall_app. split; [exact Fw|]. constructor; [|constructor; [|constructor]]; cbn [fst snd]; congruence. }
    unfold chip_tl. rewrite ym_regs_app, Yw, Ws. rewrite app_assoc, rrun_app. unfold w2. cbn [writes]. rewrite (carrier_spec _ q Ha Oq).
    change (part_of 2) with 0.
    destruct (is_carrier (c_alg (chn sy 2)) q) eqn:Ec.
    + fold (vtl v). rewrite adjust_scaled by (assumption || lia). assert (Sr := scaled_range v (o_tl (opr sy 2 q)) ltac:(lia) Ht).
      rewrite (level_expected sy 2 q) by (assumption || lia).
      assert (R := expected_range (c_alg (chn sy 2)) (vol sy 2) q (scaled_level v (o_tl (opr sy 2 q))) (vol_ok sy Hsy 2 C2) ltac:(lia)).
      assert (Ad : addr (KOp GTl 2 q) = (0, oper_reg 64 2 q)).
      { assert (Qc : q = 0 \/ q = 1 \/ q = 2) by lia. destruct Qc as [-> | [-> | ->]]; reflexivity. }
      rewrite Ad. unfold rrun at 1, fld. cbn [fold_left]. unfold rstep at 1. cbn [fst snd]. rewrite !Z.eqb_refl. cbn [andb].
      unfold expected_level at 3. rewrite Ec. f_equal. rewrite Z.pow_0_r, Z.div_1_r. unfold u8. rewrite (Z.mod_small _ 256) by lia. apply Z.mod_small. exact R.
    + unfold fld, rrun at 1. cbn [fold_left]. rewrite Keep'. reflexivity.
Qed.

(** Releasing the only key held sends nothing. *)
Theorem special_release q p : 0 <= q < 3 -> MidiSpec.seven p -> filter (fun k => (fst k =? 10 + q) && negb (snd k =? p)) (held ms) = [] ->
  exists s, history r hw mem (ops ++ [AMsg (MNoteOff (10 + q) p)]) s tr0.
Proof.
  intros Hq Hp K0. set (c := 10 + q) in *.
  destruct (history_played _ _ _ _ _ _ H0) as ((Hs & _) & cs0 & B & _).
  assert (Om : mop_ok (MNoteOff c p)) by (cbn; unfold is_chan, MidiSpec.seven in *; lia).
  destruct (ok_ch_get (a_midi s0) c Hs ltac:(unfold is_chan; lia)) as (m & Hm & _).
  destruct (midi_note_off_eq c p (a_midi s0) m Hs ltac:(unfold is_chan; lia) Hm) as (st & _ & _ & E).
  assert (S := static_before _ _ _ B W).
  assert (Nx : off_next m p = 0).
  { assert (X := held_sublist _ _ _ B c m Hm). change (held (MCallback true :: ms)) with (held ms) in X.
    apply (sublist_filter (fun x => negb (x =? p))) in X. rewrite filter_rev' in X.
    assert (Y : filter (fun x => negb (x =? p)) (held_on c (held ms)) = []).
    { unfold held_on. clear - K0. induction (held ms) as [|[a b] t IH]; [reflexivity|]. cbn [filter fst snd] in *. destruct (a =? c); cbn [andb map filter snd] in *; [|exact (IH K0)].
      destruct (negb (b =? p)); [discriminate|exact (IH K0)]. }
    rewrite Y in X. unfold off_next, off_stack. inversion X as [l Q|a x l Q|x a l Q].
    assert (Z1 : filter (fun x => negb (x =? p)) (keys (m_np m)) = []) by (rewrite <- (rev_involutive (filter _ (keys (m_np m)))), <- Q; reflexivity). rewrite Z1. reflexivity. }
  assert (Fb : falls_back (a_midi s0) m c p = false) by (unfold falls_back; rewrite Nx, andb_false_r; reflexivity).
  set (cs := flat_map (note_off_calls (a_midi s0) m c p) (md_dev (a_midi s0))) in *.
  assert (Q : Forall (fun x => x = DNoteOff VSm q p) cs).
  { unfold cs. apply Forall_forall. intros x Hx. apply in_flat_map in Hx as (d & Hd & Hx). destruct (In_zget _ _ Hd) as [j Hj].
    unfold note_off_calls, off_calls, serves_note in Hx. rewrite Fb, (proj2 S j d Hj) in Hx. destruct (Z.eqb_spec j c) as [Ej|]; [|destruct Hx]. subst j. cbn [andb] in Hx.
    destruct (isChannelPlayingNote d p); [|destruct Hx]. destruct Hx as [<-|[]].
    destruct (ok_dev _ _ _ Hs Hj) as [((_ & _ & S3) & _) _]. destruct S3 as [N1 N2]; [lia|]. rewrite N1, N2. f_equal. lia. }
  destruct (small_performed r hw mem ops (MNoteOff c p) s0 tr0 _ cs VSm q H0 Om E (or_intror eq_refl)) as (s & o & Hh & Em & Sy & P & X & _).
  { eapply Forall_impl; [|exact Q]. intros a ->. split; reflexivity. }
  { eapply Forall_impl; [|exact Q]. intros a -> (? & ? & ? & ? & [=] & _). }
  assert (Z1 : flat_map (small_sops r) cs = [] /\ flat_map (small_events r) cs = []).
  { clear - Q. induction cs as [|a t IH]; [split; reflexivity|]. cbn [flat_map]. rewrite (Forall_inv Q). exact (IH (Forall_inv_tail Q)). }
  destruct Z1 as [Z1 Z2]. rewrite Z1 in Sy. cbn in Sy. injection Sy as _ Sy. rewrite Z2 in X.
  rewrite (only_others o _ (eq_sym Sy) P X), app_nil_r in Hh. exists s. exact Hh.
Qed.
End Special.

Theorem sample_starts r hw mem ops p v s0 tr0 : history r hw mem ops s0 tr0 -> MidiSpec.seven p -> 1 <= v <= 127 -> without remaps ops ->
  sampling (map message ops) = true -> tn_glide (tuned (map message ops)) 5 = false ->
  (length (filter (fun k => Z.eqb (fst k) 5) (held (map message ops))) < 10)%nat ->
  0 <= bent (map message ops) 5 p -> 0 <= pitched (map message ops) 5 p -> pitched (map message ops) 5 p / 100 < 128 ->
  exists s, history r hw mem (ops ++ [AMsg (MNoteOn 5 p v)]) s (tr0 ++ sample_start r (pitched (map message ops) 5 p / 100)).
Proof. intros. destruct (sample_begins r hw mem ops p v s0 tr0) as (s & m & d & H' & _); try assumption. exists s. exact H'. Qed.
Theorem sample_stops r hw mem ops p v s0 tr0 : history r hw mem ops s0 tr0 -> MidiSpec.seven p -> 1 <= v <= 127 -> without remaps ops ->
  sampling (map message ops) = true -> tn_glide (tuned (map message ops)) 5 = false ->
  filter (fun k => Z.eqb (fst k) 5) (held (map message ops)) = [] ->
  0 <= bent (map message ops) 5 p -> 0 <= pitched (map message ops) 5 p -> pitched (map message ops) 5 p / 100 < 128 ->
  exists s, history r hw mem (ops ++ [AMsg (MNoteOn 5 p v)] ++ [AMsg (MNoteOff 5 p)]) s (tr0 ++ sample_start r (pitched (map message ops) 5 p / 100) ++ [EvPcmStop]).
Proof. intros. eapply sample_ends; try eassumption. rewrite H5. cbn. lia. Qed.
