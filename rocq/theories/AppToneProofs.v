(** From the settings of device channels to the chip's registers. *)
From Verif Require Import Base BaseLemmas PitchModel SynthModel SynthSpec SynthProofs SynthMirrorProofs SynthClaimsProofs SynthViewProofs MidiModel MidiSpec MidiOkProofs MidiEqProofs MidiEffectProofs MidiCallProofs.
From Verif Require Import MidiProofs MidiDevProofs MidiInvProofs.
From Verif Require Import PsgModel DevModel DevSpec DevProofs AppModel AppSpec AppProofs AppTraceProofs AppClaimsProofs AppViewProofs AppKeyProofs SoundSpec AppSoundProofs.
From Verif Require MidiCarryProofs.

(** Calls that keep instruments as loaded, from the built-in presets. *)
Definition keeps_preset (c : dcall) : Prop :=
  (forall op, c = DSynth op -> param_of op = None) /\ unstored c.
Lemma sv_step_clean n v op : param_of op = None -> v_edited v = false -> v_edited (sv_step n v op) = false.
Proof. intros H E. destruct op; try discriminate H; cbn; try exact E; try reflexivity; try (destruct (_ =? n); cbn; assumption || reflexivity). Qed.
Lemma sv_clean_all n ops : forall v, Forall (fun op => param_of op = None) ops -> v_edited v = false -> v_edited (fold_left (sv_step n) ops v) = false.
Proof. induction ops as [|op t IH]; intros v H E; [exact E|]. apply Forall_cons_iff in H as [H1 H2]. apply IH; [exact H2|]. apply sv_step_clean; assumption. Qed.
Lemma cv_clean r n w c : keeps_preset c -> v_edited (cv_sv w) = false /\ cv_user w = false ->
  v_edited (cv_sv (cv_step r n w c)) = false /\ cv_user (cv_step r n w c) = false.
Proof.
  intros [H1 [U1 U2]] [E U].
  assert (X : v_edited (fold_left (sv_step n) (cv_sops r w c) (cv_sv w)) = false).
  { apply sv_clean_all; [|exact E].
    destruct c as [v q x ce vel|v q x|v q x|v q x|v q|v q x|v q x ce|q b|op|e|prog q|prog|q prog|prog|mc q|data| | | | | |k mc key v|mc b];
      cbn [cv_sops]; try destruct v; try apply Forall_nil; try (constructor; [reflexivity|apply Forall_nil]).
    - destruct (playable x); [|apply Forall_nil]. destruct (cv_perc w); repeat (constructor; [reflexivity|]); apply Forall_nil.
    - constructor; [apply H1; reflexivity|apply Forall_nil]. }
  destruct c as [v q x ce vel|v q x|v q x|v q x|v q|v q x|v q x ce|q b|op|e|prog q|prog|q prog|prog|mc q|data| | | | | |k mc key v|mc b];
    cbn [cv_step]; try destruct v; rewrite ?U; cbn [andb cv_sv cv_user]; try (split; [exact X|reflexivity]);
    try (destruct (_ && _); [split; [exact X|reflexivity]|auto]); try (destruct (_ =? n); [split; [exact X|reflexivity]|auto]).
  - exfalso. eapply U1; reflexivity.
  - exfalso. eapply U2; reflexivity.
Qed.
Lemma cv_clean_all r n cs : forall w, Forall keeps_preset cs -> v_edited (cv_sv w) = false /\ cv_user w = false ->
  v_edited (cv_sv (fold_left (cv_step r n) cs w)) = false /\ cv_user (fold_left (cv_step r n) cs w) = false.
Proof.
  induction cs as [|c t IH]; intros w H E; [exact E|]. apply Forall_cons_iff in H as [H1 H2]. cbn [fold_left]. apply IH; [exact H2|]. apply cv_clean; assumption.
Qed.

(** The volume is the product of channel volume and velocity. *)
Definition calm (c : dcall) : Prop := forall op, c = DSynth op -> match op with SInit _ | SVolume _ _ => False | _ => True end.
Lemma sv_vol_kept n v op : match op with SInit _ | SVolume _ _ => False | _ => True end -> v_vol (sv_step n v op) = v_vol v.
Proof. intros H. destruct op; try contradiction H; cbn; try reflexivity; destruct (_ =? n); reflexivity. Qed.
Lemma cv_loud r n w c : calm c -> v_vol (cv_sv w) = loudness (cv_vol w) (cv_vel w) ->
  v_vol (cv_sv (cv_step r n w c)) = loudness (cv_vol (cv_step r n w c)) (cv_vel (cv_step r n w c)).
Proof.
  intros H E.
  destruct c as [v q x ce vel|v q x|v q x|v q x|v q|v q x|v q x ce|q b|op|e|prog q|prog|q prog|prog|mc q|data| | | | | |k mc key v|mc b];
    cbn [cv_step cv_sops]; try destruct v; try exact E; cbn [fold_left].
  - destruct (Z.eqb_spec q n) as [->|N]; cbn [andb]; [|exact E]. destruct (playable x); [|exact E].
    cbn [cv_sv cv_vol cv_vel]. destruct (cv_perc w); cbn [Datatypes.app fold_left sv_step]; rewrite !Z.eqb_refl; reflexivity.
  - cbn [cv_sv cv_vol cv_vel sv_step]. destruct (_ =? n); exact E.
  - destruct (q =? n) eqn:N; [|exact E]. cbn [cv_sv cv_vol cv_vel sv_step]. rewrite N. reflexivity.
  - destruct (cv_user w && (q =? n)); cbn [cv_sv cv_vol cv_vel sv_step sv_edit]; destruct (q =? n); exact E.
  - cbn [cv_sv cv_vol cv_vel sv_step]. destruct (_ =? n); exact E.
  - cbn [cv_sv cv_vol cv_vel sv_step]. destruct (_ =? n); exact E.
  - cbn [cv_sv cv_vol cv_vel sv_step]. destruct (_ =? n); exact E.
  - destruct (_ =? n); exact E.
  - cbn [cv_sv cv_vol cv_vel]. rewrite sv_vol_kept by (apply H; reflexivity). exact E.
  - reflexivity.
Qed.
Lemma cv_loud_all r n cs : forall w, Forall calm cs -> v_vol (cv_sv w) = loudness (cv_vol w) (cv_vel w) ->
  v_vol (cv_sv (fold_left (cv_step r n) cs w)) = loudness (cv_vol (fold_left (cv_step r n) cs w)) (cv_vel (fold_left (cv_step r n) cs w)).
Proof. induction cs as [|c t IH]; intros w H E; [exact E|]. apply Forall_cons_iff in H as [H1 H2]. cbn [fold_left]. apply IH; [exact H2|]. apply cv_loud; assumption. Qed.

(** Provenance of the calls. *)
Lemma controls_edit k a x o : fm_controls k a x = Some o -> k <> 1 -> k <> 74 -> is_fm_controller k.
Proof.
  unfold is_fm_controller, fm_controls. cbv zeta. intros H _ _.
  repeat match type of H with context [if ?b then _ else _] => destruct b; try discriminate end; discriminate.
Qed.
Lemma controls_lfo k a x o : fm_controls k a x = Some o -> param_of o <> None -> k <> 1 /\ k <> 74.
Proof.
  unfold fm_controls. cbv zeta. intros H P.
  split; intros ->; cbn in H; injection H as <-; apply P; reflexivity.
Qed.
Lemma history_from ops s cs : boots_to (MCallback true :: map message ops) s cs ->
  forall c, In c (skipn 4 cs) -> voice_call c \/ c = DSmReset \/ (exists m, In (AMsg m) ops /\ menu m c).
Proof.
  intros B c Hc. destruct (boots_menu _ _ _ B _ Hc) as [[V|V]|(m & [<-|Hm] & M)]; auto; [destruct M|].
  apply in_message in Hm as [Hm| ->]; [right; right; eauto|left; exact M].
Qed.
Lemma menu_synth m op : menu m (DSynth op) ->
  (exists c k v a x, m = MCc c k v /\ setter op /\ fm_controls k a x = Some op) \/ (exists b, op = SDac b) \/ (exists b, op = SSpecialMode b) \/
  (exists p g d, op = SDirect p g d /\ raw_write m).
Proof.
  intros M. destruct m as [? ? ?|? ?|ch key v|? ?|? ?|data| | |b]; cbn [menu voice_call] in M; try contradiction.
  - destruct M as [M|[(t & a & b & d' & M)|[(a & b & M)|[(_ & q & z & M)|[(o & M & So & a & x & F)|[(_ & b & M)|(_ & b & M)]]]]]]; try contradiction; try discriminate M; injection M as ->.
    + left. exists ch, key, v, a, x. auto.
    + right; left; eauto.
    + right; right; left; eauto.
  - destruct M as [M|(t & a & b & d' & M)]; [contradiction|discriminate].
  - destruct M as [[_ M]|[(_ & l & M)|[(_ & l & M)|[(K & a & b & d & M)|[(_ & q & z & M)|[(_ & q & M)|[(_ & q & M)|(_ & a & q & M)]]]]]]]; try contradiction; try discriminate M.
    injection M as ->. right; right; right. exists a, b, d. auto.
  - destruct M as [M|[M|[M|M]]]; try contradiction; discriminate M.
Qed.
Lemma history_keeps ops s cs : boots_to (MCallback true :: map message ops) s cs -> without edits_fm ops -> without stores ops ->
  Forall keeps_preset (skipn 4 cs).
Proof.
  intros B W1 W2. apply Forall_forall. intros c Hc. destruct (history_from _ _ _ B c Hc) as [V|[->|(m & Hm & M)]].
  - split; [intros op ->; destruct V|]. split; intros a b ->; destruct V.
  - split; [discriminate|split; discriminate].
  - split.
    + intros op ->. destruct (menu_synth m op M) as [(ch & k & v & a & x & -> & So & F)|[(b & ->)|[(b & ->)|(p & g & d & -> & _)]]]; try reflexivity.
      destruct (param_of op) eqn:P; [|reflexivity]. exfalso. apply (W1 _ Hm). destruct (controls_lfo k a x op F) as [K1 K2]; [congruence|].
      exists ch, k, v. split; [reflexivity|]. split; [eapply controls_edit; eauto|]. auto.
    + exact (store_calls _ _ _ B W2 c Hc).
Qed.
Lemma history_calm ops s cs : boots_to (MCallback true :: map message ops) s cs -> Forall calm (skipn 4 cs).
Proof.
  intros B. apply Forall_forall. intros c Hc op ->. destruct (history_from _ _ _ B _ Hc) as [V|[V|(m & Hm & M)]]; [destruct V|discriminate V|].
  destruct (menu_synth m op M) as [(ch & k & v & a & x & -> & So & F)|[(b & ->)|[(b & ->)|(p & g & d & -> & _)]]]; try exact I.
  destruct op; try exact I; contradiction So.
Qed.

(** The operators of special mode stay silent without notes for them. *)
Definition sm_on (c : dcall) : bool := match c with DNoteOn VSm _ _ _ _ => true | _ => false end.
Definition sm_seen (t : bool) (c : dcall) : bool := t || sm_on c.
Definition qinv (l : list dev) (t : bool) : Prop :=
  t = false /\ length l = 13%nat /\ (forall j d, zget l j = Some d -> shape_ok j d) /\
  forall j d, 10 <= j -> zget l j = Some d -> d_on d = false /\ (d_midi d = j \/ d_midi d = 127).
Lemma sm_plain t c : plain_call c -> sm_seen t c = t.
Proof. intros [P _]. unfold sm_seen. destruct c; try discriminate P; cbn; apply orb_false_r. Qed.
Lemma sm_calls op j d cs d' t : 0 <= j < 13 -> shape_ok j d -> datom op j d cs d' -> (10 <= j -> d_on d = false) -> t = false -> fold_left sm_seen cs t = false.
Proof.
  intros R S A Off ->. assert (V : forall p ce v, d_on d = true -> sm_on (DNoteOn (d_ops d) (d_num d) p ce v) = false).
  { intros p ce v On. destruct S as (S1 & S2 & S3). destruct (Z_lt_le_dec j 6) as [L|L].
    - destruct (S1 L) as [_ [O|[_ O]]]; rewrite O; reflexivity.
    - destruct (Z_lt_le_dec j 10) as [L'|L']; [destruct (S2 ltac:(lia)) as [_ O]; rewrite O; reflexivity|]. rewrite Off in On by lia. discriminate. }
  destruct A; try reflexivity; unfold sm_seen; cbn [fold_left orb]; try (apply V; assumption).
  unfold press_calls. destruct (back c d); reflexivity.
Qed.
Lemma qinv_atom op l t j d cs d' : ~ remapping op -> ~ sm_note op -> mop_ok op -> op <> MReset -> ~ gm_reset_msg op ->
  qinv l t -> zget l j = Some d -> datom (Some op) j d cs d' -> qinv (zset l j d') (fold_left sm_seen cs t).
Proof.
  intros K1 K2 Ho N1 N2 (T & L & S & H) Hj A.
  assert (R := zget_Some _ _ _ Hj). rewrite L in R. change (Z.of_nat 13) with 13 in R. assert (S1 := S j d Hj).
  split; [eapply sm_calls; [exact R|exact S1|exact A| |exact T]; intros J; apply (H j d J Hj)|].
  split; [rewrite zset_length; exact L|]. split.
  - intros i x Hx. destruct (Z.eq_dec i j) as [->|Nk]; [|rewrite zget_zset_other in Hx by auto; exact (S i x Hx)].
    rewrite zget_zset_same in Hx by (rewrite L; exact R). injection Hx as <-. exact (atom_shape _ _ _ _ _ R A S1).
  - intros i x J Hx. destruct (Z.eq_dec i j) as [->|Nk]; [|rewrite zget_zset_other in Hx by auto; exact (H i x J Hx)].
    rewrite zget_zset_same in Hx by (rewrite L; exact R). injection Hx as <-. destruct (H j d J Hj) as [H1 H2].
    destruct A; try (split; [exact H1|exact H2]); try (split; [reflexivity|exact H2]).
    + exfalso. injection H0 as ->. specialize (H6 J). destruct Ho as (Hc & _). destruct H2 as [H2|H2].
      * apply K2. exists c, p, v. split; [reflexivity|]. lia.
      * unfold is_chan in Hc. lia.
    + exfalso. destruct H0 as [[_ [[=]|[[=]|B]]]|B]; [auto|apply because_some in B; auto..].
    + exfalso. destruct H0 as [[=]|[B|[[=]|[B _]]]]; [|auto|apply because_some in B; auto].
      apply K1. right; left. apply because_some in B. exact B.
Qed.
(** Messages that press no keys make no key sound. *)
Lemma quiet_moves op l cs l' t : (forall c p v, op <> MNoteOn c p v) -> ~ off_msg op -> moves (Some op) 0 l cs l' -> t = false -> fold_left sm_seen cs t = false.
Proof.
  intros N O M T.
  refine (moves_inv sm_seen (Some op) (fun _ => True) (fun _ t => t = false) _ _ l cs l' M _ t T).
  - clear T t. intros l0 t j d c d' T Hj A _. subst t. unfold sm_seen.
    destruct A; try reflexivity; try (apply because_some in H; contradiction).
    + exfalso. injection H as H. exact (N _ _ _ H).
    + exfalso. destruct H as (k & H & _). injection H as H. exact (N _ _ _ H).
  - intros l0 t0 c P _ E. rewrite sm_plain; assumption.
  - apply Forall_forall. intros; exact I.
Qed.
Lemma qinv_step op s s' o t : ~ remapping op -> ~ sm_note op -> mop_ok op -> midi_ok s -> steps s op s' o -> qinv (md_dev s) t -> qinv (md_dev s') (fold_left sm_seen o t).
Proof.
  intros K1 K2 Ho Hs E H. destruct (step_ok _ _ _ _ Hs Ho E) as [Hs' _].
  assert (D : forall dyn, (forall j d, zget (md_dev s') j = Some d -> exists d0, d = dev_after_init dyn j d0) -> fold_left sm_seen o t = false -> qinv (md_dev s') (fold_left sm_seen o t)).
  { intros dyn D T. split; [exact T|]. split; [apply Hs'|]. split; [intros j d Hd; apply Hs', Hd|].
    intros j d J Hd. destruct (D j d Hd) as (d0 & ->). split; [reflexivity|]. destruct dyn; [right|left]; reflexivity. }
  destruct (reset_dec op) as [->|N].
  - destruct (reset_moves s s' o Hs E) as (o' & -> & M). apply (D false).
    + intros j d Hd. destruct (reset_devs s s' _ Hs E) as (_ & _ & X). destruct (X j d Hd) as (d0 & _ & ->). eauto.
    + change (fold_left sm_seen o' (t || false || false || false) = false). rewrite !orb_false_r. eapply (quiet_moves MReset); [discriminate| |exact M|apply H]. intros [(c & p & [=])|(c & p & [=])].
  - assert (X : gm_reset_msg op \/ ~ gm_reset_msg op).
    { destruct op; try (right; intros (z & [=]); fail). destruct (is_gm_reset data) eqn:G; [left; apply gm_data, G|right; intros (z & [= ->]); discriminate G]. }
    destruct X as [G|G].
    + destruct (gm_moves op s s' o Hs G E) as (devs & o1 & o2 & -> & M1 & M2 & _ & _ & _ & F).
      apply (D (md_dyn s')).
      * intros j d Hd. destruct (F j d Hd) as (d0 & _ & ->). eauto.
      * rewrite fold_left_app. destruct G as (z & ->). eapply (quiet_moves (MSysex _)); [discriminate| |exact M2|]; [intros [(c & p & [=])|(c & p & [=])]|].
        eapply (quiet_moves MTick); [discriminate| |exact M1|apply H]. intros [(c & p & [=])|(c & p & [=])].
    + refine (moves_inv sm_seen (Some op) (fun _ => True) qinv _ _ _ _ _ (step_moves op s s' o Ho Hs E) _ t H).
      * intros l t0 j d cs d' Hi Hj A _. eapply qinv_atom; eassumption.
      * intros l t0 c P _ Hi. rewrite sm_plain by exact P. exact Hi.
      * apply Forall_forall. intros; exact I.
Qed.
Lemma sm_seen_true cs : forall t, fold_left sm_seen cs t = false -> forall c, In c cs -> sm_on c = false.
Proof.
  induction cs as [|a l IH]; intros t H c Hc; [destruct Hc|]. cbn [fold_left] in H. destruct Hc as [->|Hc]; [|eapply IH; eassumption].
  destruct (sm_on c) eqn:E; [|reflexivity]. exfalso. revert H. unfold sm_seen at 2. rewrite E, orb_true_r. clear. induction l as [|x l IH]; [discriminate|exact IH].
Qed.
Theorem special_silent ops s cs : boots_to ops s cs -> Forall (fun m => ~ remapping m /\ ~ sm_note m) ops -> forall c, In c cs -> sm_on c = false.
Proof.
  intros B F. apply (sm_seen_true cs false).
  refine (proj1 (boots_ind (fun ops s cs => Forall (fun m => ~ remapping m /\ ~ sm_note m) ops -> qinv (md_dev s) (fold_left sm_seen cs false)) _ _ ops s cs B F)).
  - intros _. split; [reflexivity|]. split; [reflexivity|]. split; [intros j d Hd; apply booted_ok, Hd|].
    intros j d J Hd. assert (R := zget_Some _ _ _ Hd). change (Z.of_nat (length (md_dev booted))) with 13 in R.
    assert (X : j = 10 \/ j = 11 \/ j = 12) by lia. destruct X as [->|[->| ->]]; injection Hd as <-; split; try reflexivity; left; reflexivity.
  - clear. intros ops op s cs s' o B Hs IH Ho E F. apply Forall_app in F as [F1 F2]. apply Forall_inv in F2. rewrite fold_left_app.
    eapply qinv_step; [apply F2|apply F2|exact Ho|exact Hs|exact E|exact (IH F1)].
Qed.

(** Levels of one channel. *)
Definition level_safe_for (n : Z) (op : sop) : Prop :=
  match op with SAlgorithm c _ => c <> n | SSpecialVolume _ _ => n <> 2 | _ => True end.
Lemma levels_of p ops s tr n : preset_ok p -> Forall sop_ok ops -> Forall no_raw_clash ops -> Forall (level_safe_for n) ops -> is_ch n ->
  synth_run (SInit p :: ops) synth0 = Done tt s tr ->
  forall o, is_op o -> chip_tl (ym_regs tr) n o = Some (expected_level (c_alg (chn s n)) (vol s n) o (o_tl (opr s n o))).
Proof.
  intros Hp Ho Hr Hl Hn E o Hop.
  set (X := fun k => exists o, k = KOp GTl n o).
  destruct (run_from_init (fun op => no_raw_clash op /\ level_safe_for n op) (fun s tr => mir X s (ym_regs tr)) p ops synth0)
    as (s' & tr' & E' & Hs & Hm); auto.
  - apply synth0_ok.
  - rewrite Forall_forall in *. intros op Hin. split; auto.
  - intros oo _ W _. change oo with ([] ++ oo). rewrite ym_regs_app, W.
    eapply mir_weaken; [|apply mir_init; [apply synth0_ok|exact Hp]].
    intros k (o1 & ->) c'; split; discriminate.
  - intros op s1 tr1 o1 Hm Hs Hop1 [Hr1 Hl1] _ W _.
    eapply c13_step; [| |exact Hm|exact Hs|exact Hop1|exact W].
    + intros k (o2 & ->); right; eauto.
    + intros k Hk (o2 & ->) Hni Hst.
      destruct op; cbn [stale no_raw_clash level_safe_for] in *; try contradiction.
      * eapply Hni; reflexivity.
      * destruct Hst as (o3 & [= <- _]). apply Hl1; reflexivity.
      * destruct Hst; discriminate.
      * injection Hst as -> _. apply Hl1; reflexivity.
      * apply Hr1. assert (A := addr_managed _ Hk). rewrite Hst in A. exact A.
  - rewrite E in E'; inversion E'; subst s' tr'. apply (decode_tl X); auto. exists o; reflexivity.
Qed.

Lemma settings_messages ops c : settings (MCallback true :: map message ops) c = settings (map message ops) c.
Proof. reflexivity. Qed.
Lemma all_messages (P : mop -> Prop) ops : P (MCallback true) -> P MTick -> without (fun m => ~ P m) ops -> (forall m, P m \/ ~ P m) ->
  Forall P (MCallback true :: map message ops).
Proof.
  intros P1 P2 W D. constructor; [exact P1|]. apply Forall_forall. intros m Hm. apply in_message in Hm as [Hm| ->]; [|exact P2].
  destruct (D m) as [X|X]; [exact X|]. destruct (W m Hm X).
Qed.
Lemma plain_messages (P : mop -> Prop) ops : ~ P (MCallback true) -> ~ P MTick -> without P ops ->
  forall m, In m (MCallback true :: map message ops) -> ~ P m.
Proof.
  intros P1 P2 W m [<-|Hm]; [exact P1|]. apply in_message in Hm as [Hm| ->]; [|exact P2]. exact (W m Hm).
Qed.
Lemma remapping_plain : ~ remapping (MCallback true) /\ ~ remapping MTick.
Proof. split; intros [(c & v & [=])|[(c & v & [=])|[(l & [=])|(l & [=])]]]. Qed.
Lemma cc_plain k : ~ is_cc k (MCallback true) /\ ~ is_cc k MTick.
Proof. split; intros (c & v & [=]). Qed.

Section Tone.
Context (r : rom) (hw : hardware) (mem : list Z) (ops : list aop) (s : app) (tr : list event).
Context (H : history r hw mem ops s tr).
Context (n : Z) (Hn : 0 <= n < 6) (d : dev) (Hd : dev_at (a_midi s) n d) (Hon : d_on d = true).
Context (W2 : without remapping ops).
Context (W3 : without (is_cc 78) ops).

(** Everything known about the channel. *)
Lemma tone side (drums : bool) : (side = true -> without (is_cc 77) ops) -> (drums = true -> drums_in_order (map message ops)) ->
  let t := settings (map message ops) (d_midi d) in
  exists w cs k, boots_to (MCallback true :: map message ops) (a_midi s) cs /\ played r mem cs (a_dev s) tr /\
    w = fold_left (cv_step r n) (skipn 4 cs) (cv0 r) /\ cv_holds n w (a_dev s) tr /\ sinv r n side drums k (md_dev (a_midi s)) w /\
    is_chan (d_midi d) /\ cv_vol w = st_vol t /\ (side = true -> cv_side w = pan_side (st_pan t)) /\
    (drums = true -> cv_perc w = true -> d_midi d = 9) /\ (drums = true -> cv_pre w = rom_preset r (st_prog t) \/ d_midi d = 9).
Proof.
  intros W4 D. assert (H' := H). destruct H' as (Hr & Hm & _). destruct (history_played _ _ _ _ _ _ H) as (Hi & cs & B & P).
  assert (F : Forall (sound_op side) (MCallback true :: map message ops)).
  { apply Forall_forall. intros m Hin. split; [exact (plain_messages remapping ops (proj1 remapping_plain) (proj2 remapping_plain) W2 m Hin)|].
    split; [exact (plain_messages (is_cc 78) ops (proj1 (cc_plain 78)) (proj2 (cc_plain 78)) W3 m Hin)|].
    intros T. exact (plain_messages (is_cc 77) ops (proj1 (cc_plain 77)) (proj2 (cc_plain 77)) (W4 T) m Hin). }
  destruct (sound_invariant r n side drums _ _ _ Hn B F D) as (k & S). assert (Hc := boots_calls_ok _ _ _ B).
  assert (V := played_view r Hr mem Hm n cs _ _ Hn P Hc).
  destruct S as (L & S & C). destruct (S n d Hd) as (_ & _ & S3 & _). specialize (S3 Hon). destruct (C d Hd) as (C1 & C2 & C3 & C4).
  assert (R : Forall (fun m => ~ remapping m) (MCallback true :: map message ops)) by (apply Forall_forall; intros m Hin; apply (proj1 (Forall_forall _ _) F m Hin)).
  destruct (MidiCarryProofs.sounding_settings _ _ _ n d R B Hd Hon S3) as (E1 & E2 & E3 & _). rewrite settings_messages in E1, E2, E3.
  cbv zeta. rewrite <- E1, <- E2, <- E3.
  eexists. exists cs, k. split; [exact B|]. split; [exact P|]. split; [reflexivity|]. split; [exact V|]. split; [split; [exact L|split; [exact S|exact C]]|].
  split; [exact S3|]. split; [exact C1|]. split; [exact C2|]. split; [intros T; exact (C3 T Hon)|exact C4].
Qed.

Theorem side_settings : without raw_write ops -> without (is_cc 77) ops ->
  chip_st (ym_regs tr) n = Some (pan_side (st_pan (settings (map message ops) (d_midi d)))).
Proof.
  intros W1 W4. destruct (tone true false (fun _ => W4)) as (w & cs & k & _ & _ & _ & V & _ & _ & _ & S & _); [discriminate|].
  destruct (c13_app _ _ _ _ _ _ H W1) as [_ M]. destruct (M n Hn) as (ch & Hch & (_ & _ & St & _) & _). rewrite St, <- (S eq_refl).
  destruct V as (_ & _ & _ & (_ & V2 & _) & _). unfold cv_side. rewrite <- V2. unfold chn.
  assert (Hs : synth_ok (v_synth (a_dev s))) by (destruct (history_played _ _ _ _ _ _ H) as (Hi & _); apply Hi).
  assert (Z := zget_chn _ Hs n Hn). rewrite Hch in Z. injection Z as ->. reflexivity.
Qed.

Lemma history_synth_ok : synth_ok (v_synth (a_dev s)).
Proof. destruct (history_played _ _ _ _ _ _ H) as (Hi & _). apply Hi. Qed.

(** The percussion flag is up only for percussion. *)
Theorem drums_only : drums_in_order (map message ops) -> d_midi d <> 9 -> f_perc (fm_of (a_dev s) n) = false.
Proof.
  intros D N. destruct (tone false true) as (w & cs & k & _ & _ & _ & V & _ & _ & _ & _ & P & _); [discriminate|intros _; exact D|].
  destruct V as (_ & _ & V3 & _). rewrite V3. destruct (cv_perc w); [|reflexivity]. exfalso. apply N, P; reflexivity.
Qed.

Theorem instrument_settings : without raw_write ops -> without edits_fm ops -> without stores ops -> drums_in_order (map message ops) -> d_midi d <> 9 ->
  let p := nth (Z.to_nat (st_prog (settings (map message ops) (d_midi d)))) (rom_presets r) no_preset in
  plays_preset (ym_regs tr) n p.
Proof.
  intros W1 W4 W5 D N. cbv zeta.
  destruct (tone false true) as (w & cs & k & B & P & Ew & V & _ & _ & _ & _ & _ & X); [discriminate|intros _; exact D|].
  destruct (X eq_refl) as [X'|X']; [|contradiction]. clear X.
  destruct (cv_clean_all r n (skipn 4 cs) (cv0 r) (history_keeps _ _ _ B W4 W5) (conj eq_refl eq_refl)) as [E _]. rewrite <- Ew in E.
  destruct V as (_ & _ & _ & (_ & _ & V3 & _) & _). specialize (V3 E). unfold cv_pre in X'. rewrite X' in V3. clear X'.
  destruct (c13_app _ _ _ _ _ _ H W1) as [_ M]. destruct (M n Hn) as (ch & Hch & (M1 & M2 & _ & M4 & M5 & M6) & _).
  assert (Z := zget_chn _ history_synth_ok n Hn). rewrite Hch in Z. injection Z as Z. rewrite <- Z in V3.
  fold (rom_preset r (st_prog (settings (map message ops) (d_midi d)))). rewrite <- V3. unfold plays_preset, chan_preset. cbn [p_alg p_fb p_ams p_fms p_ops].
  repeat (split; [assumption|]). exact M6.
Qed.

(** The levels in the chip are those of the channel's instrument at its volume. *)
Lemma chip_levels : without raw_write ops -> without edits_fm ops -> without stores ops -> n <> 2 \/ without sm_note ops ->
  forall o, is_op o -> chip_tl (ym_regs tr) n o =
    Some (expected_level (c_alg (chn (v_synth (a_dev s)) n)) (vol (v_synth (a_dev s)) n) o (o_tl (opr (v_synth (a_dev s)) n o))).
Proof.
  intros W1 W4 W5 W6. destruct (history_played _ _ _ _ _ _ H) as (_ & cs & B & P). assert (K := history_keeps _ _ _ B W4 W5).
  assert (H' := H). destruct H' as (Hr & Hm & _).
  destruct (played_ok r Hr mem cs _ _ Hm P (boots_calls_ok _ _ _ B)) as (_ & _ & so & po & E1 & _ & S1 & _ & R1 & _).
  assert (Y : forall o, is_op o -> chip_tl (ym_regs (filter fm_event tr)) n o =
    Some (expected_level (c_alg (chn (v_synth (a_dev s)) n)) (vol (v_synth (a_dev s)) n) o (o_tl (opr (v_synth (a_dev s)) n o)))).
  { apply (levels_of (preset0 r) so); [apply preset0_ok; exact Hr|exact S1| | |exact Hn|exact E1].
    - apply Forall_forall. intros x Hx. destruct (R1 x Hx) as [(b & ->)|(si & c & Hc & _ & Hin)]; [exact I|].
      destruct x; try exact I. exfalso. assert (NR := proj1 (Forall_forall _ _) (history_not_raw _ _ _ B W1) c Hc).
      destruct c as [v q x ce vel|v q x|v q x|v q x|v q|v q x|v q x ce|q b|op|e|prog q|prog|q prog|prog|mc q|dat| | | | | |kk mc key v|mc b];
        cbn [synth_calls] in Hin; try destruct v; try contradiction Hin; try (destruct Hin as [Hin|[]]; discriminate Hin).
      + destruct (playable x); [|destruct Hin]. apply in_app_or in Hin as [Hin|Hin].
        * destruct (f_perc _); [destruct Hin as [Hin|[]]; discriminate Hin|destruct Hin].
        * repeat (destruct Hin as [Hin|Hin]; [discriminate Hin|]). destruct Hin.
      + repeat (destruct Hin as [Hin|Hin]; [discriminate Hin|]). destruct Hin.
      + destruct Hin as [Hin|[]]. subst op. eapply NR; reflexivity.
    - apply Forall_forall. intros x Hx. destruct (R1 x Hx) as [(b & ->)|(si & c & Hc & _ & Hin)]; [exact I|].
      assert (KP := proj1 (Forall_forall _ _) K c Hc). destruct KP as [KP _].
      destruct x; try exact I; cbn [level_safe_for].
      + exfalso.
        destruct c as [v' q x' ce vel|v' q x'|v' q x'|v' q x'|v' q|v' q x'|v' q x' ce|q b|op|e|prog q|prog|q prog|prog|mc q|dat| | | | | |kk mc key v'|mc b];
          cbn [synth_calls] in Hin; try destruct v'; try contradiction Hin; try (destruct Hin as [Hin|[]]; discriminate Hin).
        * destruct (playable x'); [|destruct Hin]. apply in_app_or in Hin as [Hin|Hin].
          -- destruct (f_perc _); [destruct Hin as [Hin|[]]; discriminate Hin|destruct Hin].
          -- repeat (destruct Hin as [Hin|Hin]; [discriminate Hin|]). destruct Hin.
        * repeat (destruct Hin as [Hin|Hin]; [discriminate Hin|]). destruct Hin.
        * destruct Hin as [Hin|[]]. subst op. discriminate (KP _ eq_refl).
      + destruct W6 as [W6|W6]; [exact W6|]. exfalso.
        assert (Q : sm_on c = false).
        { apply (special_silent _ _ _ B) with (c := c); [|rewrite <- (firstn_skipn 4 cs); apply in_or_app; right; exact Hc].
          apply Forall_forall. intros m Hmm. split; [exact (plain_messages remapping ops (proj1 remapping_plain) (proj2 remapping_plain) W2 m Hmm)|].
          apply (plain_messages sm_note ops); [intros (a & b & e & [=] & _)..|exact W6|exact Hmm]. }
        destruct c as [v' q x' ce vel|v' q x'|v' q x'|v' q x'|v' q|v' q x'|v' q x' ce|q b|op|e|prog q|prog|q prog|prog|mc q|dat| | | | | |kk mc key v'|mc b];
          cbn [synth_calls] in Hin; try destruct v'; try contradiction Hin; try (destruct Hin as [Hin|[]]; discriminate Hin); try discriminate Q.
        * destruct (playable x'); [|destruct Hin]. apply in_app_or in Hin as [Hin|Hin].
          -- destruct (f_perc _); [destruct Hin as [Hin|[]]; discriminate Hin|destruct Hin].
          -- repeat (destruct Hin as [Hin|Hin]; [discriminate Hin|]). destruct Hin.
        * destruct Hin as [Hin|[]]. subst op. destruct (history_from _ _ _ B _ Hc) as [Vc|[Vc|(m & Hmm & Mc)]]; [destruct Vc|discriminate Vc|].
          destruct (menu_synth m _ Mc) as [(ch & kk & v' & a & x' & _ & So & _)|[(b & [=])|[(b & [=])|(pp & g & dd & [=] & _)]]]. contradiction So. }
  intros o Ho. rewrite regs_fm. apply Y, Ho.
Qed.

Theorem level_settings : without raw_write ops -> without edits_fm ops -> without stores ops -> drums_in_order (map message ops) -> d_midi d <> 9 ->
  n <> 2 \/ without sm_note ops ->
  let t := settings (map message ops) (d_midi d) in
  let p := nth (Z.to_nat (st_prog t)) (rom_presets r) no_preset in
  plays_level (ym_regs tr) n p (loudness (st_vol t) (f_vel (fm_of (a_dev s) n))).
Proof.
  intros W1 W4 W5 D N W6. cbv zeta.
  destruct (tone false true) as (w & cs & k & B & P & Ew & V & _ & _ & Vo & _ & _ & X); [discriminate|intros _; exact D|].
  destruct (X eq_refl) as [X'|X']; [|contradiction]. clear X.
  assert (K := history_keeps _ _ _ B W4 W5).
  destruct (cv_clean_all r n (skipn 4 cs) (cv0 r) K (conj eq_refl eq_refl)) as [E _]. rewrite <- Ew in E.
  assert (L := cv_loud_all r n (skipn 4 cs) (cv0 r) (history_calm _ _ _ B) eq_refl). rewrite <- Ew in L.
  destruct V as (_ & V2 & _ & (V1 & _ & V3 & _) & _). specialize (V3 E). unfold cv_pre in X'. rewrite X' in V3. clear X'.
  rewrite Vo, <- V2, <- V1 in L.
  intros o Ho. rewrite (chip_levels W1 W4 W5 W6 o Ho), L.
  fold (rom_preset r (st_prog (settings (map message ops) (d_midi d)))). rewrite <- V3. unfold chan_preset. cbn [p_alg p_ops].
  exists (opr (v_synth (a_dev s)) n o). split; [|reflexivity].
  apply zget_oper; [apply chn_ok; [apply history_synth_ok|exact Hn]|exact Ho].
Qed.
End Tone.

(** ** Volume and velocity *)
Lemma playing_ok : playing_law played_level.
Proof.
  destruct SynthClaimsProofs.c10_law as (A & B & C & D & E). unfold playing_law, played_level. split; [|split; [|split; [|split]]].
  - intros. change (loudness 127 127) with 127. apply A; assumption.
  - intros alg v o tl Hc Hv Ht. assert (Z1 : loudness 0 v = 0) by reflexivity. assert (Z2 : loudness v 0 = 0) by (unfold loudness; rewrite Z.mul_0_r; reflexivity).
    rewrite Z1, Z2. split; apply B; assumption.
  - intros alg v v' w w' o tl Hv Hv' Hw Hw' Ht. apply C; [|unfold loudness; apply Z.div_lt_upper_bound; nia|exact Ht].
    unfold loudness. split; [apply Z.div_pos; nia|apply Z.div_le_mono; nia].
  - intros. apply D; assumption.
  - intros alg v w o tl Hv Hw Ht. apply E; [|exact Ht]. unfold loudness. split; [apply Z.div_pos; nia|apply Z.div_lt_upper_bound; nia].
Qed.
