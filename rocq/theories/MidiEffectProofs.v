(** Effects of controllers and system exclusive messages, case by case, and
    induction over histories. *)
From Verif Require Import Base BaseLemmas PitchModel PitchProofs NotePriorityModel NotePriorityProofs SynthModel.
From Verif Require Import MidiModel MidiSpec MidiProofs MidiOkProofs MidiEqProofs.

(** ** FM parameter controllers *)
Definition fm_call (s : midi) (k v : Z) (d : dev) : list dcall :=
  if md_nogm s then []
  else match fm_parameter s (d_num d) k v with Some op => [DSynth op] | None => [] end.
Definition dac_calls (v : Z) (c : Z) (l : list dev) : list dcall :=
  flat_map (calls_at c (fun _ => [DSynth (SDac (negb (RANGE v 2 =? 0)))])) l.

Lemma zget_suffix {A} (pre suf : list A) : forall i, 0 <= i ->
  zget (pre ++ suf) (Z.of_nat (length pre) + i) = zget suf i.
Proof.
  induction pre as [|x pre IH]; intros i Hi; cbn [app length]; [reflexivity|].
  rewrite zget_cons. destruct (Z.eqb_spec (Z.of_nat (S (length pre)) + i) 0); [lia|].
  rewrite <- (IH i Hi). f_equal. lia.
Qed.
Lemma fm_loop_plain c k v s : k <> 78 -> forall suf pre,
  md_dev s = pre ++ suf ->
  fm_parameter_loop c k v (zseq (Z.of_nat (length pre)) (length suf)) s
  = WDone s (flat_map (calls_at c (fm_call s k v)) suf).
Proof.
  intros Hk. induction suf as [|d t IH]; intros pre E; cbn [length zseq fm_parameter_loop flat_map]; [reflexivity|].
  assert (Hd : zget (md_dev s) (Z.of_nat (length pre)) = Some d).
  { rewrite E, <- (Z.add_0_r (Z.of_nat _)), zget_suffix by lia. reflexivity. }
  rewrite (wget_Some _ _ _ Hd), wbind_ret. apply (wbind_done _ _ s).
  - unfold calls_at, fm_call, set_fm_chan_parameter. destruct (d_midi d =? c); [|reflexivity].
    destruct (Z.eqb_spec k 78); [contradiction|].
    destruct (fm_parameter s (d_num d) k v); [|destruct (md_nogm s); reflexivity].
    destruct (md_nogm s); reflexivity.
  - specialize (IH (pre ++ [d])). rewrite app_length in IH. cbn [length] in IH.
    replace (Z.of_nat (length pre) + 1) with (Z.of_nat (length pre + 1)) by lia.
    apply IH. rewrite <- app_assoc. exact E.
Qed.
Lemma fm_cc_plain c k v s : length (md_dev s) = 13%nat -> k <> 78 ->
  fm_parameter_cc c k v s = WDone s (flat_map (calls_at c (fm_call s k v)) (md_dev s)).
Proof.
  intros Hl Hk. unfold fm_parameter_cc. assert (H := fm_loop_plain c k v s Hk (md_dev s) [] eq_refl).
  rewrite Hl in H. exact H.
Qed.

Definition dac_dev (v : Z) (i : Z) (d : dev) : dev :=
  if i =? 5 then d_set_ops d (if negb (RANGE v 2 =? 0) then VDac else VFm) else d.
Definition dac_devs (v : Z) (l : list dev) : list dev :=
  match zget l 5 with
  | Some d => zset l 5 (d_set_ops d (if negb (RANGE v 2 =? 0) then VDac else VFm)) | None => l end.
Lemma dac_devs_get v l i : zget (dac_devs v l) i = option_map (dac_dev v i) (zget l i).
Proof.
  unfold dac_devs, dac_dev. destruct (zget l 5) as [d|] eqn:E.
  - destruct (Z.eqb_spec i 5) as [->|Hi].
    + rewrite zget_zset_same, E by (eapply zget_Some; exact E). reflexivity.
    + rewrite zget_zset_other by congruence. destruct (zget l i); reflexivity.
  - destruct (Z.eqb_spec i 5) as [->|]; [rewrite E; reflexivity|]. destruct (zget l i); reflexivity.
Qed.
Lemma fm_cc_dac c v s : length (md_dev s) = 13%nat ->
  exists devs o, fm_parameter_cc c 78 v s = WDone (md_set_dev s devs) o /\
    (devs = md_dev s /\ o = [] \/
     devs = dac_devs v (md_dev s) /\ md_nogm s = false /\ o <> [] /\
     Forall (fun x => x = DSynth (SDac (negb (RANGE v 2 =? 0)))) o /\
     exists i d, zget (md_dev s) i = Some d /\ d_midi d = c).
Proof.
  intros Hl. unfold fm_parameter_cc.
  destruct (md_nogm s) eqn:Eg.
  { exists (md_dev s), []. split; [|left; auto].
    assert (Hs : md_set_dev s (md_dev s) = s) by (destruct s; reflexivity). rewrite Hs. clear Hs.
    assert (HI : forall i, In i (zseq 0 13) -> 0 <= i < 13) by (intros i Hi; apply in_zseq in Hi; lia).
    revert HI. generalize (zseq 0 13). induction l as [|i t IH]; intros HI; cbn [fm_parameter_loop]; [reflexivity|].
    destruct (zget_in_range (md_dev s) i) as [d Hd]; [rewrite Hl; apply HI; left; reflexivity|].
    rewrite (wget_Some _ _ _ Hd), wbind_ret. unfold set_fm_chan_parameter. rewrite Z.eqb_refl, Eg.
    assert (Hif : (if d_midi d =? c then wret s else wret s) = wret s) by (destruct (_ =? _); reflexivity).
    rewrite Hif, wbind_ret. apply IH. intros; apply HI; right; assumption. }
  set (e := negb (RANGE v 2 =? 0)) in *.
  (* once switched, switching again changes nothing more *)
  assert (HI : forall i, In i (zseq 0 13) -> 0 <= i < 13) by (intros i Hi; apply in_zseq in Hi; lia).
  assert (G : forall is s0, md_nogm s0 = false -> length (md_dev s0) = 13%nat -> (forall i, In i is -> 0 <= i < 13) ->
    exists o, (fm_parameter_loop c 78 v is s0 = WDone s0 o /\ o = [] \/
               fm_parameter_loop c 78 v is s0 = WDone (md_set_dev s0 (dac_devs v (md_dev s0))) o /\ o <> [] /\
               exists i d, zget (md_dev s0) i = Some d /\ d_midi d = c) /\ Forall (fun x => x = DSynth (SDac e)) o).
  { induction is as [|i t IH]; intros s0 Eg0 Hl0 Hin.
    - exists []. split; [left; split; reflexivity|constructor].
    - cbn [fm_parameter_loop]. destruct (zget_in_range (md_dev s0) i) as [d Hd]; [rewrite Hl0; apply Hin; left; reflexivity|].
      rewrite (wget_Some _ _ _ Hd), wbind_ret.
      destruct (Z.eqb_spec (d_midi d) c) as [Hm|Hm].
      + unfold set_fm_chan_parameter. rewrite Z.eqb_refl, Eg0. unfold enable_dac. fold e.
        destruct (zget_in_range (md_dev s0) 5) as [d5 Hd5]; [lia|]. rewrite (wget_Some _ _ _ Hd5), wbind_ret.
        set (s1 := md_set_dev s0 (zset (md_dev s0) 5 (d_set_ops d5 (if e then VDac else VFm)))).
        assert (E1 : md_dev s1 = dac_devs v (md_dev s0)) by (unfold dac_devs; rewrite Hd5; reflexivity).
        destruct (IH s1 Eg0) as (o & Ho & Hf).
        { cbn. rewrite zset_length. exact Hl0. }
        { intros; apply Hin; right; assumption. }
        assert (Hidem : md_set_dev s1 (dac_devs v (md_dev s1)) = s1).
        { unfold s1 at 1. unfold md_set_dev at 1. cbn [md_ch md_dyn md_pref md_nogm md_stick md_inv md_cb md_set_dev].
          unfold s1 at 2, md_set_dev. f_equal. rewrite E1. apply zget_ext. intros j. rewrite !dac_devs_get.
          change (zset (md_dev s0) 5 (d_set_ops d5 (if e then VDac else VFm))) with (md_dev s1). rewrite E1, dac_devs_get.
          destruct (zget (md_dev s0) j); [|reflexivity]. cbn. unfold dac_dev. destruct (j =? 5); reflexivity. }
        exists (DSynth (SDac e) :: o). split; [right|constructor; [reflexivity|exact Hf]].
        split; [|split; [discriminate|eauto]].
        rewrite <- E1. change (md_set_dev s0 (md_dev s1)) with s1.
        unfold wbind at 1. unfold wbind at 1, wemit. cbn [app wret].
        destruct Ho as [[Ho _]|[Ho _]]; rewrite Ho; [|rewrite Hidem]; reflexivity.
      + rewrite wbind_ret. apply IH; [assumption|assumption|]. intros; apply Hin; right; assumption. }
  destruct (G _ s Eg Hl HI) as (o & [[Ho ->]|[Ho Hne]] & Hf).
  - exists (md_dev s), []. rewrite Ho. split; [destruct s; reflexivity|left; auto].
  - exists (dac_devs v (md_dev s)), o. split; [exact Ho|right]. tauto.
Qed.

(** ** Controllers *)
(** A controller that only rewrites fields of its channel: [Some f]. *)
Definition cc_field (s : midi) (k v : Z) (m : mchan) : option mchan :=
  if k =? 5 then match zget portaTimeToInterval v with Some t => Some (m_set_int m t) | None => None end
  else if k =? 86 then if md_nogm s then None else Some (m_set_sel m (RANGE v 4))
  else if k =? 65 then Some (m_set_porta m (negb (RANGE v 2 =? 0)))
  else if k =? 85 then if md_nogm s then None else Some (m_set_fine m (s8 (v - 64)))
  else if k =? 101 then Some (update_rpn v true m)
  else if k =? 100 then Some (update_rpn v false m)
  else None.

Inductive cc_result (s : midi) (m : mchan) (c k v : Z) : midi -> list dcall -> Prop :=
| cc_sets_field m' : cc_field s k v m = Some m' ->
    cc_result s m c k v (md_set_ch s (zset (md_ch s) c m')) []
| cc_volume : k = 7 ->
    cc_result s m c k v
      (md_set_dev (md_set_ch s (zset (md_ch s) c (m_set_vol m v))) (map (at_chan c (fun d => d_set_vol d v)) (md_dev s)))
      (flat_map (calls_at c (fun d => if d_vol d =? v then [] else [DVolume (d_ops d) (d_num d) v])) (md_dev s))
| cc_pan : k = 10 ->
    cc_result s m c k v
      (md_set_dev (md_set_ch s (zset (md_ch s) c (m_set_pan m v))) (map (at_chan c (fun d => d_set_pan d v)) (md_dev s)))
      (flat_map (calls_at c (fun d => if d_pan d =? v then [] else [DPan (d_ops d) (d_num d) v])) (md_dev s))
| cc_notes_off : k = 123 \/ k = 120 ->
    cc_result s m c k v
      (md_set_dev s (map (at_chan c (fun d => d_set_pitch (d_set_on d false) 0)) (md_dev s)))
      (flat_map (calls_at c (fun d => [DAllOff (d_ops d) (d_num d)])) (md_dev s))
| cc_poly s' : k = 84 -> set_polyphonic_mode (negb (RANGE v 2 =? 0)) s = WDone s' [] -> cc_result s m c k v s' []
| cc_special : k = 80 -> cc_result s m c k v s [DSynth (SSpecialMode (negb (RANGE v 2 =? 0)))]
| cc_reset s' o : k = 121 -> resetAllControllers c s = WDone s' o -> cc_result s m c k v s' o
| cc_show : k = 83 -> md_nogm s = false -> cc_result s m c k v s [DUi c (negb (RANGE v 2 =? 0))]
| cc_range : k = 6 \/ k = 38 -> m_rpn m = 0 ->
    cc_result s m c k v (md_set_ch s (zset (md_ch s) c (set_range m v (k =? 6))))
      (flat_map (calls_at c (fun d => if d_bend d =? BEND_CENTRE then []
         else [DPitch (d_ops d) (d_num d) (pc_pitch (eff (set_range m v (k =? 6)) d))
                 (pc_cents (eff (set_range m v (k =? 6)) d))])) (md_dev s))
| cc_nothing : (k = 6 \/ k = 38) /\ m_rpn m <> 0 \/ (k = 11 \/ k = 64 \/ k = 98 \/ k = 99) \/
               (k = 83 \/ k = 86 \/ k = 85) /\ md_nogm s = true ->
    cc_result s m c k v s []
| cc_store o : k = 87 ->
    o = [] \/ (exists i d, serves s c i d /\ d_ops d = VFm /\ o = [DStoreFrom (d_num d) v]) -> cc_result s m c k v s o
| cc_fm : ~ In k [5; 7; 10; 123; 120; 84; 80; 121; 83; 86; 65; 85; 6; 38; 101; 100; 11; 64; 98; 99; 87; 78] ->
    cc_result s m c k v s (flat_map (calls_at c (fm_call s k v)) (md_dev s))
| cc_dac devs o : k = 78 ->
    (devs = md_dev s /\ o = [] \/
     devs = dac_devs v (md_dev s) /\ md_nogm s = false /\ o <> [] /\
     Forall (fun x => x = DSynth (SDac (negb (RANGE v 2 =? 0)))) o /\ exists i d, serves s c i d) ->
    cc_result s m c k v (md_set_dev s devs) o.

Lemma set_poly_quiet b s : midi_ok s -> exists s', set_polyphonic_mode b s = WDone s' [].
Proof.
  intros Hs. unfold set_polyphonic_mode. destruct b; [|eexists; reflexivity].
  assert (Hs' : length (md_dev (set_dynamic_mode 1 s)) = 13%nat).
  { change (length (assign_modes true 0 (md_dev s)) = 13%nat). rewrite assign_length. apply Hs. }
  revert Hs'. cbn [b2z]. generalize (set_dynamic_mode 1 s) as s1.
  assert (HI : forall i, In i (upto 0 5) -> 0 <= i <= 5) by (intros i Hi; apply in_upto in Hi; exact Hi).
  revert HI. generalize (upto 0 5) as is.
  induction is as [|i t IH]; intros HI s1 Hl; cbn [remap_all]; [eexists; reflexivity|].
  unfold midi_remap_channel. cbn [negb andb Z.eqb UNASSIGNED MIDI_CHANNELS Z.leb Z.compare].
  assert (Hi := HI i ltac:(left; reflexivity)).
  change (negb (0 =? UNASSIGNED) && (MIDI_CHANNELS <=? 0)) with false. cbv iota.
  destruct (Z.eqb_spec i 127); [lia|]. unfold DEV_CHANS. destruct (Z.leb_spec 13 i); [lia|].
  destruct (zget_in_range (md_dev s1) i) as [d Hd]; [lia|]. rewrite (wget_Some _ _ _ Hd), wbind_ret, wbind_ret.
  apply IH; [intros; apply HI; right; assumption|]. cbn. rewrite zset_length. exact Hl.
Qed.
Lemma store_from_eq c v l :
  exists o, store_from_loop c v l = WDone tt o /\
    (o = [] \/ exists d, In d l /\ d_midi d = c /\ d_ops d = VFm /\ o = [DStoreFrom (d_num d) v]).
Proof.
  induction l as [|d t (o & E & H)]; cbn [store_from_loop]; [eexists; split; [reflexivity|auto]|].
  destruct ((d_midi d =? c) && vt_eqb (d_ops d) VFm) eqn:B.
  - eexists. split; [reflexivity|]. right. exists d. apply andb_prop in B as [B1 B2]. apply Z.eqb_eq in B1.
    split; [left; reflexivity|]. split; [exact B1|]. split; [destruct (d_ops d); congruence || discriminate|reflexivity].
  - exists o. split; [exact E|]. destruct H as [->|(e & H1 & H2)]; [left; reflexivity|right].
    exists e. split; [right; exact H1|exact H2].
Qed.
Lemma cc_action_eq c k v s m :
  midi_ok s -> is_chan c -> seven v -> ch_at s c m ->
  exists s' o, cc_action c k v s = WDone s' o /\ cc_result s m c k v s' o.
Proof.
  intros Hs Hc Hv Hm. destruct (ok_ch _ _ _ Hs Hm) as [Hmok _]. assert (Hn : m_num m = c) by apply Hmok.
  unfold cc_action. rewrite (wget_Some _ _ _ Hm), wbind_ret.
  assert (HO : forall f, on_ch c f s = WDone (md_set_ch s (zset (md_ch s) c (f m))) []).
  { intros f. unfold on_ch. rewrite (wget_Some _ _ _ Hm). reflexivity. }
  assert (HF : forall m', cc_field s k v m = Some m' ->
    forall r, r = WDone (md_set_ch s (zset (md_ch s) c m')) [] -> exists s' o, r = WDone s' o /\ cc_result s m c k v s' o).
  { intros m' E r ->. do 2 eexists. split; [reflexivity|]. apply cc_sets_field, E. }
  destruct (Z.eqb_spec k 5) as [->|K5].
  { destruct (porta_get v Hv) as (t & Ht & _). rewrite (wget_Some _ _ _ Ht), wbind_ret.
    apply (HF (m_set_int m t)); [unfold cc_field; rewrite Ht; reflexivity|apply HO]. }
  destruct (Z.eqb_spec k 7) as [->|K7].
  { rewrite (channel_volume_eq _ _ _ m Hm Hn). do 2 eexists. split; [reflexivity|]. apply cc_volume. reflexivity. }
  destruct (Z.eqb_spec k 10) as [->|K10].
  { rewrite (channel_pan_eq _ _ _ m Hm Hn). do 2 eexists. split; [reflexivity|]. apply cc_pan. reflexivity. }
  destruct ((k =? 123) || (k =? 120)) eqn:KO.
  { rewrite all_notes_off_eq. do 2 eexists. split; [reflexivity|]. apply cc_notes_off. lia. }
  destruct (Z.eqb_spec k 84) as [->|K84].
  { destruct (set_poly_quiet (negb (RANGE v 2 =? 0)) s Hs) as [s' E]. do 2 eexists. split; [exact E|]. apply cc_poly; [reflexivity|exact E]. }
  destruct (Z.eqb_spec k 80) as [->|K80].
  { do 2 eexists. split; [reflexivity|]. apply cc_special. reflexivity. }
  destruct (Z.eqb_spec k 121) as [->|K121].
  { assert (W := resetAllControllers_ok c s Hs Hc). destruct (resetAllControllers c s) as [s' o|f] eqn:E; [|destruct W].
    do 2 eexists. split; [reflexivity|]. apply cc_reset; [reflexivity|exact E]. }
  destruct (Z.eqb_spec k 83) as [->|K83].
  { destruct (md_nogm s) eqn:Eg; do 2 eexists; (split; [reflexivity|]);
      [apply cc_nothing; right; right; auto|apply cc_show; [reflexivity|exact Eg]]. }
  destruct (Z.eqb_spec k 86) as [->|K86].
  { destruct (md_nogm s) eqn:Eg; [do 2 eexists; (split; [reflexivity|]); apply cc_nothing; right; right; auto|].
    apply (HF (m_set_sel m (RANGE v 4))); [unfold cc_field; rewrite Eg; reflexivity|apply HO]. }
  destruct (Z.eqb_spec k 65) as [->|K65]; [eapply HF; [reflexivity|apply HO]|].
  destruct (Z.eqb_spec k 85) as [->|K85].
  { destruct (md_nogm s) eqn:Eg; [do 2 eexists; (split; [reflexivity|]); apply cc_nothing; right; right; auto|].
    apply (HF (m_set_fine m (s8 (v - 64)))); [unfold cc_field; rewrite Eg; reflexivity|apply HO]. }
  assert (HR : forall b, (b = true -> k = 6) -> (b = false -> k = 38) ->
     exists s' o, rpn_data_entry c v b s = WDone s' o /\ cc_result s m c k v s' o).
  { intros b B1 B2. unfold rpn_data_entry. rewrite (wget_Some _ _ _ Hm), wbind_ret.
    assert (Eb : b = (k =? 6)) by (destruct b; [rewrite B1 by reflexivity|rewrite B2 by reflexivity]; reflexivity).
    assert (Ek : k = 6 \/ k = 38) by (destruct b; auto).
    destruct (Z.eqb_spec (m_rpn m) 0) as [E0|E0].
    - rewrite (update_pb_range_eq _ _ _ _ m Hm Hn), Eb. do 2 eexists. split; [reflexivity|]. apply cc_range; assumption.
    - do 2 eexists. split; [reflexivity|]. apply cc_nothing. auto. }
  destruct (Z.eqb_spec k 6) as [->|K6]; [apply (HR true); [reflexivity|discriminate]|].
  destruct (Z.eqb_spec k 38) as [->|K38]; [apply (HR false); [discriminate|reflexivity]|].
  destruct (Z.eqb_spec k 101) as [->|K101]; [eapply HF; [reflexivity|apply HO]|].
  destruct (Z.eqb_spec k 100) as [->|K100]; [eapply HF; [reflexivity|apply HO]|].
  destruct ((k =? 11) || (k =? 64) || (k =? 98) || (k =? 99)) eqn:KN.
  { do 2 eexists. split; [reflexivity|]. apply cc_nothing. right. left. lia. }
  destruct (Z.eqb_spec k 87) as [->|K87].
  { destruct (store_from_eq c v (md_dev s)) as (o & E & H). rewrite E. exists s, o.
    split; [cbn; unfold wbind, wret; rewrite app_nil_r; reflexivity|]. apply cc_store; [reflexivity|].
    destruct H as [->|(d & H1 & H2 & H3 & H4)]; [left; reflexivity|right].
    destruct (In_zget _ _ H1) as [i Hi]. exists i, d. unfold serves, dev_at. auto. }
  destruct (Z.eq_dec k 78) as [->|K78].
  { destruct (fm_cc_dac c v s ltac:(apply Hs)) as (devs & o & E & H). rewrite E. do 2 eexists. split; [reflexivity|].
    apply cc_dac; [reflexivity|]. destruct H as [H|(H1 & H2 & H3 & H4 & i & d & H5 & H6)]; [left; exact H|right].
    repeat (split; [assumption|]). exists i, d. split; assumption. }
  rewrite fm_cc_plain by (apply Hs || assumption). do 2 eexists. split; [reflexivity|]. apply cc_fm.
  cbn [In]. intros H. repeat destruct H as [H|H]; try (subst k; discriminate); try (subst k; contradiction); try contradiction.
Qed.
Lemma midi_cc_result c k v s m s' o :
  midi_ok s -> is_chan c -> seven v -> ch_at s c m -> midi_cc c k v s = WDone s' o ->
  exists o', cc_result s m c k v s' o' /\ o = o' ++ (if md_cb s' then [DChange 2 c k v] else []).
Proof.
  intros Hs Hc Hv Hm. destruct (cc_action_eq c k v s m Hs Hc Hv Hm) as (s1 & o1 & E & R).
  unfold midi_cc. rewrite E. unfold wbind at 1, notify_change.
  destruct (md_cb s1) eqn:Ecb; cbn; intros [= <- <-]; exists o1; rewrite Ecb; auto.
Qed.

(** ** System exclusive *)
Definition quiet_call (x : dcall) : Prop := call_voice x = None /\ match x with DPerc _ _ => False | _ => True end.
Inductive sysex_result (s : midi) (data : list Z) : midi -> list dcall -> Prop :=
| sx_nothing : sysex_result s data s []
| sx_gm t s' o : data = [0x7E; 0x7F; 0x09; 0x01] ++ t -> general_midi_reset s = WDone s' o -> sysex_result s data s' o
| sx_remap a b s' : data = [0x00; 0x22; 0x77; 0x00; a; b] -> midi_remap_channel a b s = WDone s' [] -> sysex_result s data s' []
| sx_dynamic a : data = [0x00; 0x22; 0x77; 0x03; a] -> sysex_result s data (set_dynamic_mode (b2z (negb (a =? 0))) s) []
| sx_nogm a : data = [0x00; 0x22; 0x77; 0x04; a] -> sysex_result s data (md_set_nogm s (a =? 0)) []
| sx_stick a : data = [0x00; 0x22; 0x77; 0x05; a] -> sysex_result s data (md_set_stick s (negb (a =? 0))) []
| sx_inv a : data = [0x00; 0x22; 0x77; 0x07; a] -> sysex_result s data (md_set_inv s (negb (a =? 0))) []
| sx_calls o : Forall quiet_call o -> sysex_result s data s o.

Lemma wbind_inv {A B} (m : wres A) (k : A -> wres B) b o :
  wbind m k = WDone b o -> exists a o1 o2, m = WDone a o1 /\ k a = WDone b o2 /\ o = o1 ++ o2.
Proof.
  unfold wbind. destruct m as [a o1|f]; [|discriminate]. destruct (k a) as [b' o2|f] eqn:E; [|discriminate].
  intros [= <- <-]. eauto 8.
Qed.
Lemma emit_inv {A} c (k : unit -> wres A) b o :
  wbind (wemit c) k = WDone b o -> exists o', k tt = WDone b o' /\ o = c :: o'.
Proof. intros H. apply wbind_inv in H as (a & o1 & o2 & H1 & H2 & ->). injection H1 as <- <-. eauto. Qed.
Lemma wdata_inv data i x o : wdata data i = WDone x o -> zget data i = Some x /\ o = [].
Proof. unfold wdata. destruct (zget data i); [|discriminate]. intros [= <- <-]. auto. Qed.
Lemma find_quiet devs p : forall is r o, find_dev devs p is = WDone r o -> o = [].
Proof.
  induction is as [|i t IH]; cbn [find_dev]; intros r o1 H1; [injection H1 as _ <-; reflexivity|].
  apply wbind_inv in H1 as (d & p1 & p2 & G1 & G2 & ->). unfold wget in G1. destruct (zget _ i); [|discriminate].
  injection G1 as <- <-. destruct (p _); [injection G2 as _ <-; reflexivity|]. apply IH in G2. exact G2.
Qed.
Lemma remap_quiet a b s s' o : midi_remap_channel a b s = WDone s' o -> o = [].
Proof.
  unfold midi_remap_channel. destruct (_ && _); [intros [= _ <-]; reflexivity|]. destruct (b =? 127).
  - intros H. apply wbind_inv in H as (r & o1 & o2 & H1 & H2 & ->).
    apply find_quiet in H1.
    subst o1. destruct r as [i|]; [|injection H2 as _ <-; reflexivity].
    apply wbind_inv in H2 as (d & p1 & p2 & G1 & G2 & ->). unfold wget in G1. destruct (zget _ i); [|discriminate].
    injection G1 as <- <-. injection G2 as _ <-. reflexivity.
  - destruct (_ <=? _); [intros [= _ <-]; reflexivity|]. intros H.
    apply wbind_inv in H as (d & p1 & p2 & G1 & G2 & ->). unfold wget in G1. destruct (zget _ b); [|discriminate].
    injection G1 as <- <-. injection G2 as _ <-. reflexivity.
Qed.
Ltac inv_data := repeat match goal with
  | H : wbind (wdata _ _) _ = WDone _ _ |- _ =>
      let x := fresh "x" in let p := fresh "p" in let q := fresh "q" in let h := fresh "G" in
      apply wbind_inv in H as (x & p & q & h & H & ->); apply wdata_inv in h as [h ->]; cbn [app] in H
  end.
Lemma fixed_inv n h data s s' o : fixed_length n h data s = WDone s' o ->
  (s' = s /\ o = []) \/ (Z.of_nat (length data) = n /\ h data s = WDone s' o).
Proof.
  unfold fixed_length. destruct (Z.eqb_spec (Z.of_nat (length data)) n); cbn [negb]; [auto|intros [= <- <-]; auto].
Qed.
Lemma store_operator_quiet data i x o : store_operator data i = WDone x o -> o = [].
Proof. unfold store_operator. intros H. inv_data. injection H as _ <-. reflexivity. Qed.
Lemma quiet_one x : quiet_call x -> Forall quiet_call [x].
Proof. intros H. constructor; [exact H|constructor]. Qed.

Lemma sysex_cmd_cases cmd h : sysex_handler cmd = Some h ->
  cmd = 0 \/ cmd = 1 \/ cmd = 3 \/ cmd = 4 \/ cmd = 5 \/ cmd = 6 \/ cmd = 7 \/ cmd = 8 \/ cmd = 9 \/
     cmd = 10 \/ cmd = 11 \/ cmd = 12 \/ cmd = 13 \/ cmd = 15.
Proof.
  unfold sysex_handler. intros Eh. destruct cmd as [|q|q]; [auto| |discriminate].
  do 5 (try destruct q as [q|q|]); try discriminate; lia.
Qed.
Lemma midi_sysex_result data s s' o : midi_sysex data s = WDone s' o -> sysex_result s data s' o.
Proof.
  unfold midi_sysex. destruct (Z.ltb_spec (Z.of_nat (length data)) 4) as [|Hlen]; [intros [= <- <-]; apply sx_nothing|].
  destruct (has_prefix [126; 127; 9; 1] data) eqn:Eg.
  { intros H. destruct (has_prefix_app _ _ Eg) as [t ->]. eapply sx_gm; [reflexivity|exact H]. }
  destruct (has_prefix [0; 34; 119] data) eqn:Ep; cbn [negb]; [|intros [= <- <-]; apply sx_nothing].
  destruct (has_prefix_app _ _ Ep) as [t ->]. cbn [app] in *. destruct t as [|cmd l]; [cbn in Hlen; lia|].
  change (wdata (0 :: 34 :: 119 :: cmd :: l) 3) with (@wret Z cmd). rewrite wbind_ret. cbn [skipn].
  clear Hlen Eg Ep.
  destruct (sysex_handler cmd) as [h|] eqn:Eh; [|intros [= <- <-]; apply sx_nothing].
  assert (Hcases := sysex_cmd_cases _ _ Eh).
  repeat (destruct Hcases as [-> | Hcases]); [..|subst cmd]; injection Eh as <-; intros H;
    try (apply fixed_inv in H as [[-> ->]|[Hl H]]; [apply sx_nothing|]);
    try (destruct l as [|a [|? ?]]; cbn [length] in Hl; try lia; change (wdata [a] 0) with (@wret Z a) in H;
         rewrite wbind_ret in H).
  - destruct l as [|a [|b [|? ?]]]; cbn [length] in Hl; try lia.
    change (wdata [a; b] 0) with (@wret Z a) in H. change (wdata [a; b] 1) with (@wret Z b) in H. rewrite !wbind_ret in H.
    assert (Eo := remap_quiet _ _ _ _ _ H). subst o. eapply sx_remap; [reflexivity|exact H].
  - unfold send_pong in H. apply wbind_inv in H as (f & o1 & o2 & H1 & H & ->).
    assert (o1 = []) by (destruct l; injection H1 as _ <-; reflexivity). subst o1.
    apply wbind_inv in H as (r & o1 & o3 & H3 & H & ->).
    assert (o1 = []).
    { destruct (_ <=? _); [|injection H3 as _ <-; reflexivity]. inv_data. destruct (_ =? _); injection H3 as _ <-; reflexivity. }
    subst o1. apply emit_inv in H as (o' & H & ->). injection H as <- <-. apply sx_calls, quiet_one. split; [reflexivity|exact I].
  - injection H as <- <-. apply sx_dynamic; reflexivity.
  - injection H as <- <-. eapply sx_nogm; reflexivity.
  - injection H as <- <-. eapply sx_stick; reflexivity.
  - unfold load_psg_envelope in H. apply wbind_inv in H as (bs & o1 & o2 & H1 & H & ->).
    assert (o1 = []).
    { clear H. assert (G : forall n l, (length l <= n)%nat -> forall bs o1, envelope_bytes l = WDone bs o1 -> o1 = []).
      { clear. induction n as [|n IH]; intros l Hl bs o1 H1.
        - destruct l; [|cbn in Hl; lia]. injection H1 as _ <-. reflexivity.
        - destruct l as [|a [|b t]]; [injection H1 as _ <-; reflexivity|discriminate|]. cbn [envelope_bytes] in H1.
          apply wbind_inv in H1 as (r & p1 & p2 & G1 & G2 & ->). injection G2 as _ <-.
          rewrite (IH t ltac:(cbn in Hl; lia) _ _ G1). reflexivity. }
      eapply G; [|exact H1]. apply le_n. }
    subst o1. destruct (_ <=? _); [discriminate|]. apply emit_inv in H as (o' & H & ->). injection H as <- <-.
    apply sx_calls, quiet_one. split; [reflexivity|exact I].
  - injection H as <- <-. eapply sx_inv; reflexivity.
  - unfold direct_write in H. destruct (negb _); [injection H as <- <-; apply sx_nothing|]. inv_data.
    apply emit_inv in H as (o' & H & ->). injection H as <- <-. apply sx_calls, quiet_one. split; [reflexivity|exact I].
  - unfold direct_write in H. destruct (negb _); [injection H as <- <-; apply sx_nothing|]. inv_data.
    apply emit_inv in H as (o' & H & ->). injection H as <- <-. apply sx_calls, quiet_one. split; [reflexivity|exact I].
  - unfold store_program in H. inv_data. destruct (_ =? 0); [|injection H as <- <-; apply sx_nothing]. inv_data.
    do 4 (apply wbind_inv in H as (? & ? & ? & GG & H & ->); apply store_operator_quiet in GG; subst).
    apply emit_inv in H as (o' & H & ->). injection H as <- <-. apply sx_calls, quiet_one. split; [reflexivity|exact I].
  - unfold clear_program in H. inv_data. destruct (_ =? 0); [|injection H as <- <-; apply sx_nothing].
    apply emit_inv in H as (o' & H & ->). injection H as <- <-. apply sx_calls, quiet_one. split; [reflexivity|exact I].
  - unfold clear_all_programs in H. inv_data. destruct (_ =? 0); [|injection H as <- <-; apply sx_nothing].
    apply wbind_inv in H as (u & o1 & o2 & GG & H & ->). injection H as <- <-. rewrite app_nil_r. apply sx_calls.
    revert o1 GG. generalize (zseq 0 128). clear. induction l as [|i t IH]; cbn [clear_all_loop]; intros o1 GG.
    + injection GG as _ <-. constructor.
    + apply emit_inv in GG as (o' & GG & ->). constructor; [split; [reflexivity|exact I]|]. destruct u. apply IH; exact GG.
  - unfold dump_preset_request in H. inv_data. destruct (_ =? 0); [|injection H as <- <-; apply sx_nothing].
    apply emit_inv in H as (o' & H & ->). injection H as <- <-. apply sx_calls, quiet_one. split; [reflexivity|exact I].
  - unfold dump_channel_request in H. inv_data. destruct (_ <=? _); [injection H as <- <-; apply sx_nothing|].
    destruct (_ =? 0); [|injection H as <- <-; apply sx_nothing].
    apply wbind_inv in H as (r & o1 & o2 & GH & H & ->). apply find_quiet in GH. subst o1.
    destruct r as [i|]; [|injection H as <- <-; apply sx_nothing].
    apply wbind_inv in H as (d & o1 & o3 & GH & H & ->). unfold wget in GH. destruct (zget _ i); [|discriminate].
    injection GH as <- <-. destruct (negb _); [injection H as <- <-; apply sx_nothing|].
    apply emit_inv in H as (o' & H & ->). injection H as <- <-. apply sx_calls, quiet_one. split; [reflexivity|exact I].
Qed.

(** ** Resets and re-assignment *)
Lemma resetAll_eq c s : midi_ok s -> is_chan c ->
  resetAllControllers c s
  = WDone (mkMidi (assign_modes (md_dyn s) 0
                     (mapi (init_dev (zset (md_ch s) c (init_midi_channel c)) (fun d => d_midi d =? c)) 0 (md_dev s)))
             (zset (md_ch s) c (init_midi_channel c)) (md_dyn s) (b2z (md_dyn s)) (md_nogm s) (md_stick s) (md_inv s) (md_cb s))
          (init_calls (zset (md_ch s) c (init_midi_channel c)) (fun d => d_midi d =? c) 0 (md_dev s)).
Proof.
  intros Hs Hc. destruct (ok_ch_get _ _ Hs Hc) as (m & Hm & _). unfold resetAllControllers.
  rewrite (wget_Some _ _ _ Hm), wbind_ret. cbv zeta. rewrite <- (app_nil_r (init_calls _ _ _ _)).
  eapply wbind_done.
  - apply init_devices_eq; [lia|]. cbn. rewrite zset_length. destruct Hs as (L1 & L2 & _). rewrite L1, L2. lia.
  - cbn. destruct (md_dyn s); reflexivity.
Qed.

Definition silent (d d1 : dev) : Prop := d1 = d \/ d1 = off_dev d.
Lemma all_channels_off_eq is : forall s,
  exists devs o, all_channels_off is s = WDone (md_set_dev s devs) o /\ length devs = length (md_dev s) /\
    (forall i d, zget (md_dev s) i = Some d ->
       exists d1, zget devs i = Some d1 /\ silent d d1 /\ (In (d_midi d) is -> d1 = off_dev d)) /\
    (forall x, In x o -> exists i d, zget (md_dev s) i = Some d /\ x = DAllOff (d_ops d) (d_num d)) /\
    (forall i d, zget (md_dev s) i = Some d -> In (d_midi d) is -> In (DAllOff (d_ops d) (d_num d)) o).
Proof.
  induction is as [|c t IH]; intros s; cbn [all_channels_off].
  - exists (md_dev s), []. split; [destruct s; reflexivity|]. split; [reflexivity|].
    split; [intros i d Hd; exists d; split; [exact Hd|]; split; [left; reflexivity|intros []]|].
    split; [intros x []|intros i d _ []].
  - rewrite all_notes_off_eq. set (f := at_chan c _). set (s1 := md_set_dev s (map f (md_dev s))).
    destruct (IH s1) as (devs & o & E & L & H1 & H2 & H3).
    assert (Hf : forall i d, zget (md_dev s) i = Some d -> zget (md_dev s1) i = Some (f d)).
    { intros i d Hd. cbn. unfold zget in *. destruct (i <? 0); [discriminate|]. rewrite nth_error_map, Hd. reflexivity. }
    assert (Hshape : forall d, d_ops (f d) = d_ops d /\ d_num (f d) = d_num d /\ d_midi (f d) = d_midi d).
    { intros d. unfold f, at_chan. destruct (_ =? _); auto. }
    assert (Hback : forall i d', zget (md_dev s1) i = Some d' -> exists d, zget (md_dev s) i = Some d /\ d' = f d).
    { intros i d'. cbn. unfold zget. destruct (i <? 0); [discriminate|]. rewrite nth_error_map.
      destruct (nth_error (md_dev s) (Z.to_nat i)); [|discriminate]. cbn. intros [= <-]. eauto. }
    exists devs. eexists. split; [unfold wbind; rewrite E; reflexivity|].
    split; [rewrite L; cbn; apply map_length|]. split; [|split].
    + intros i d Hd. destruct (H1 i (f d) (Hf _ _ Hd)) as (d1 & G1 & G2 & G3). exists d1. split; [exact G1|].
      assert (Hoff : f d = d \/ f d = off_dev d) by (unfold f, at_chan; destruct (_ =? _); auto).
      split.
      * destruct G2 as [-> | ->]; [exact Hoff|]. right. destruct Hoff as [-> | ->]; reflexivity.
      * intros [Hc|Hin].
        -- assert (Hfd : f d = off_dev d) by (unfold f, at_chan; rewrite Hc, Z.eqb_refl; reflexivity).
           destruct G2 as [-> | ->]; rewrite Hfd; reflexivity.
        -- rewrite G3 by (destruct (Hshape d) as (_ & _ & ->); exact Hin). destruct Hoff as [-> | ->]; reflexivity.
    + intros x Hx. apply in_app_iff in Hx as [Hx|Hx].
      * apply in_flat_map in Hx as (d & Hd & Hx). unfold calls_at in Hx. destruct (_ =? _); [|destruct Hx].
        destruct Hx as [<-|[]]. destruct (In_zget _ _ Hd) as [i Hi]. eauto.
      * destruct (H2 x Hx) as (i & d' & G1 & G2). destruct (Hback _ _ G1) as (d & G3 & ->).
        destruct (Hshape d) as (S1 & S2 & _). rewrite S1, S2 in G2. eauto.
    + intros i d Hd Hin. apply in_app_iff. destruct (Z.eq_dec (d_midi d) c) as [Hc|Hc].
      * left. apply in_flat_map. exists d. split; [eapply nth_error_In; unfold zget in Hd; destruct (i <? 0); [discriminate|exact Hd]|].
        unfold calls_at. rewrite Hc, Z.eqb_refl. left. reflexivity.
      * right. destruct Hin as [Hin|Hin]; [congruence|]. destruct (Hshape d) as (S1 & S2 & S3).
        specialize (H3 i (f d) (Hf _ _ Hd)). rewrite S1, S2, S3 in H3. apply H3, Hin.
Qed.
Definition gm_dyn (s : midi) : bool := if md_pref s =? 2 then true else md_dyn s.
Lemma gm_reset_eq s : midi_ok s ->
  exists devs o1 o2, general_midi_reset s
    = WDone (mkMidi devs init_chs (gm_dyn s) (md_pref s) (md_nogm s) (md_stick s) (md_inv s) (md_cb s)) (o1 ++ o2) /\
    (forall i d', zget devs i = Some d' -> exists d d1, zget (md_dev s) i = Some d /\ silent d d1 /\
        d' = dev_after_init (gm_dyn s) i d1) /\
    (forall i d, zget (md_dev s) i = Some d -> is_chan (d_midi d) -> In (DAllOff (d_ops d) (d_num d)) o1) /\
    (forall x, In x o1 -> exists i d, zget (md_dev s) i = Some d /\ x = DAllOff (d_ops d) (d_num d)) /\
    (exists devs1, o2 = init_calls init_chs (fun _ => true) 0 devs1 /\ length devs1 = 13%nat /\
       forall i d, zget (md_dev s) i = Some d -> exists d1, zget devs1 i = Some d1 /\ silent d d1).
Proof.
  intros Hs. unfold general_midi_reset.
  destruct (all_channels_off_eq (zseq 0 16) s) as (devs & o & E & L & H1 & H2 & H3). rewrite E.
  assert (Hl : length devs = 13%nat) by (rewrite L; apply Hs).
  set (s1 := if md_pref (md_set_dev s devs) =? 2 then md_set_dyn (md_set_dev s devs) true else md_set_dev s devs).
  assert (E1 : s1 = mkMidi devs (md_ch s) (gm_dyn s) (md_pref s) (md_nogm s) (md_stick s) (md_inv s) (md_cb s)).
  { unfold s1, gm_dyn. cbn. destruct (_ =? _); reflexivity. }
  assert (R := reset_channels_eq s1 ltac:(rewrite E1; exact Hl)).
  eexists _, o, _. split; [unfold wbind; cbv beta iota zeta; fold s1; rewrite R, E1; reflexivity|]. split; [|split; [|split]].
  - intros i d' Hd'. apply reset_dev_get in Hd' as (Hi & d1 & Hd1 & ->); [|exact Hl].
    destruct (zget_in_range (md_dev s) i) as [d Hd]; [destruct Hs as (-> & _); lia|].
    destruct (H1 i d Hd) as (d1' & G1 & G2 & _). cbn [md_dev] in Hd1; rewrite Hd1 in G1. injection G1 as <-. exists d, d1. auto.
  - intros i d Hd Hc. eapply H3; [exact Hd|]. apply in_zseq. unfold is_chan in Hc. lia.
  - exact H2.
  - exists devs. split; [reflexivity|]. split; [exact Hl|]. intros i d Hd. destruct (H1 i d Hd) as (d1 & G1 & G2 & _). eauto.
Qed.
Lemma remap_eq a b s : length (md_dev s) = 13%nat -> 0 <= a -> 0 <= b ->
  (midi_remap_channel a b s = WDone s []) \/
  (valid_map a /\ exists i d a', zget (md_dev s) i = Some d /\ valid_map a' /\
     midi_remap_channel a b s = WDone (md_set_dev s (zset (md_dev s) i (d_set_midi d a'))) [] /\
     (b = 0x7F /\ a' = 0x7F /\ d_midi d = a \/ b = i /\ a' = a)).
Proof.
  intros Hl Ha Hb. unfold midi_remap_channel, UNASSIGNED, MIDI_CHANNELS, DEV_CHANS.
  destruct (Z.eqb_spec a 127) as [->|Ea]; cbn [negb andb]; [|destruct (Z.leb_spec 16 a); [left; reflexivity|]].
  all: (destruct (Z.eqb_spec b 127) as [->|Eb];
    [unfold deviceChannelByMidiChannel, DEV_CHANS; rewrite find_upto by (assumption || lia);
     destruct (first_dev _ _ _) as [i|] eqn:E; [|left; reflexivity];
     apply first_dev_some in E as (Hi & d & Hd & Hp); apply Z.eqb_eq in Hp; right;
     unfold wbind at 1; rewrite (wget_Some _ _ _ Hd), wbind_ret; (split; [unfold valid_map, is_chan; lia|]);
     exists i, d, 127; (split; [exact Hd|]); (split; [right; reflexivity|]); (split; [reflexivity|]); auto
    |destruct (Z.leb_spec 13 b); [left; reflexivity|]; right;
     destruct (zget_in_range (md_dev s) b) as [d Hd]; [lia|]; rewrite (wget_Some _ _ _ Hd), wbind_ret;
     (split; [unfold valid_map, is_chan; lia|]); exists b, d; eexists; (split; [exact Hd|]);
     (split; [|split; [reflexivity|auto]]); unfold valid_map, is_chan; lia]).
Qed.
Lemma set_dynamic_dev b s i :
  zget (md_dev (set_dynamic_mode (b2z b) s)) i
  = option_map (fun d => d_set_midi d (if b then UNASSIGNED else i)) (zget (md_dev s) i).
Proof.
  replace (md_dev (set_dynamic_mode (b2z b) s)) with (assign_modes b 0 (md_dev s)) by (destruct b; reflexivity).
  rewrite zget_assign. destruct (zget (md_dev s) i); [|reflexivity]. cbn. rewrite Z.add_0_l. reflexivity.
Qed.
Lemma set_dynamic_rest b s :
  md_ch (set_dynamic_mode (b2z b) s) = md_ch s /\ md_dyn (set_dynamic_mode (b2z b) s) = b /\
  md_pref (set_dynamic_mode (b2z b) s) = b2z b /\ md_nogm (set_dynamic_mode (b2z b) s) = md_nogm s /\
  md_stick (set_dynamic_mode (b2z b) s) = md_stick s /\ md_inv (set_dynamic_mode (b2z b) s) = md_inv s /\
  md_cb (set_dynamic_mode (b2z b) s) = md_cb s.
Proof. destruct b; cbn; auto 10. Qed.
(** Polyphonic mode: MIDI channel 1 gets the FM channels. *)
Lemma set_poly_eq b s s' o : midi_ok s -> set_polyphonic_mode b s = WDone s' o ->
  md_ch s' = md_ch s /\ md_dyn s' = b /\ md_pref s' = b2z b /\ md_nogm s' = md_nogm s /\ md_stick s' = md_stick s /\
  md_inv s' = md_inv s /\ md_cb s' = md_cb s /\
  (forall i, zget (md_dev s') i =
     option_map (fun d => d_set_midi d (if b then if i <=? 5 then 0 else UNASSIGNED else i)) (zget (md_dev s) i)).
Proof.
  intros Hs. destruct b.
  - unfold set_polyphonic_mode. destruct (set_dynamic_rest true s) as (R1 & R2 & R3 & R4 & R5 & R6 & R7).
    assert (Hd := set_dynamic_dev true s). revert R1 R2 R3 R4 R5 R6 R7 Hd. cbn [b2z].
    assert (L : length (md_dev (set_dynamic_mode 1 s)) = 13%nat).
    { change (length (assign_modes true 0 (md_dev s)) = 13%nat). rewrite assign_length. apply Hs. }
    revert L. generalize (set_dynamic_mode 1 s) as s1. intros s1 L R1 R2 R3 R4 R5 R6 R7 Hd.
    assert (G : forall is s2 s' o, (forall i, In i is -> 0 <= i <= 5) -> length (md_dev s2) = 13%nat ->
      remap_all is s2 = WDone s' o ->
      (md_ch s' = md_ch s2 /\ md_dyn s' = md_dyn s2 /\ md_pref s' = md_pref s2 /\ md_nogm s' = md_nogm s2 /\
       md_stick s' = md_stick s2 /\ md_inv s' = md_inv s2 /\ md_cb s' = md_cb s2) /\
      forall i, zget (md_dev s') i =
        option_map (fun d => if existsb (Z.eqb i) is then d_set_midi d 0 else d) (zget (md_dev s2) i)).
    { induction is as [|j t IH]; intros s2 s3 o3 Hin L2 H; cbn [remap_all existsb] in *.
      - injection H as <- <-. split; [auto 10|]. intros i. destruct (zget _ i); reflexivity.
      - apply wbind_inv in H as (s4 & o4 & o5 & H4 & H5 & ->). assert (Hj := Hin j ltac:(left; reflexivity)).
        unfold midi_remap_channel in H4. change (negb (0 =? UNASSIGNED) && (MIDI_CHANNELS <=? 0)) with false in H4. cbv iota in H4.
        destruct (Z.eqb_spec j 127); [lia|]. unfold DEV_CHANS in H4. destruct (Z.leb_spec 13 j); [lia|].
        destruct (zget_in_range (md_dev s2) j) as [d Hdj]; [lia|]. rewrite (wget_Some _ _ _ Hdj), wbind_ret in H4.
        injection H4 as <- <-. assert (L3 : length (zset (md_dev s2) j (d_set_midi d 0)) = 13%nat) by (rewrite zset_length; exact L2).
        assert (Hin' : forall i, In i t -> 0 <= i <= 5) by (intros; apply Hin; right; assumption).
        destruct (IH (md_set_dev s2 (zset (md_dev s2) j (d_set_midi d 0))) _ _ Hin' L3 H5) as (A & B). split; [exact A|].
        intros i. rewrite B. cbn [md_dev md_set_dev]. destruct (Z.eqb_spec i j) as [->|Hij].
        + rewrite zget_zset_same, Hdj by (eapply zget_Some; exact Hdj). cbn. destruct (existsb _ t); reflexivity.
        + rewrite zget_zset_other by congruence. reflexivity. }
    assert (Hup : forall i, In i (upto 0 5) -> 0 <= i <= 5) by (intros i Hi; apply in_upto in Hi; exact Hi).
    intros H. destruct (G _ _ _ _ Hup L H) as ((A1 & A2 & A3 & A4 & A5 & A6 & A7) & B).
    rewrite A1, A2, A3, A4, A5, A6, A7, R1, R2, R3, R4, R5, R6, R7. repeat (split; [reflexivity|]).
    intros i. rewrite B, Hd. destruct (zget (md_dev s) i) as [d|] eqn:E; [|reflexivity]. cbn [option_map].
    assert (Hi := zget_Some _ _ _ E). f_equal.
    destruct (existsb (Z.eqb i) (upto 0 5)) eqn:Ex.
    + apply existsb_exists in Ex as (j & Hj & Hij). apply in_upto in Hj. apply Z.eqb_eq in Hij. subst j.
      destruct (Z.leb_spec i 5); [reflexivity|lia].
    + destruct (Z.leb_spec i 5); [|reflexivity]. exfalso.
      assert (existsb (Z.eqb i) (upto 0 5) = true); [|congruence]. apply existsb_exists. exists i.
      split; [apply in_upto; lia|apply Z.eqb_refl].
  - unfold set_polyphonic_mode. intros [= <- <-]. destruct (set_dynamic_rest false s) as (R1 & R2 & R3 & R4 & R5 & R6 & R7).
    repeat (split; [assumption|]). apply (set_dynamic_dev false).
Qed.

(** ** Histories *)
Definition booted : midi := Eval vm_compute in match midi_init midi0 with WDone s _ => s | WFault _ => midi0 end.
Definition boot_calls : list dcall := Eval vm_compute in match midi_init midi0 with WDone _ o => o | WFault _ => [] end.
Lemma midi_init_booted : midi_init midi0 = WDone booted boot_calls.
Proof. vm_compute. reflexivity. Qed.
Lemma booted_ok : midi_ok booted.
Proof. assert (H := midi_init_ok midi0 eq_refl). rewrite midi_init_booted in H. apply H. Qed.
Lemma midi_boot_eq ops : midi_boot ops = wbind (WDone booted boot_calls) (midi_run ops).
Proof. unfold midi_boot. rewrite midi_init_booted. reflexivity. Qed.
Lemma WDone_inj {A} (a b : A) o o' : WDone a o = WDone b o' -> a = b /\ o = o'.
Proof. intros [=]; auto. Qed.
Lemma boots_run ops s o : boots_to ops s o ->
  Forall mop_ok ops /\ exists o', midi_run ops booted = WDone s o' /\ o = boot_calls ++ o'.
Proof.
  intros [Ho H]. split; [exact Ho|]. rewrite midi_boot_eq in H.
  apply wbind_inv in H as (s1 & o1 & o2 & H1 & H2 & ->). apply WDone_inj in H1 as [E1 E2]. rewrite <- E1 in H2.
  exists o2. split; [exact H2|rewrite E2; reflexivity].
Qed.
Lemma step_ok op s s' o : midi_ok s -> mop_ok op -> steps s op s' o -> midi_ok s' /\ Forall dcall_ok o.
Proof. intros Hs Ho E. assert (H := midi_step_ok op s Hs Ho). unfold steps in E. rewrite E in H. destruct H; auto. Qed.
(** Invariants indexed by a summary [h] of the history. *)
Lemma run_induction {T : Type} (f : T -> mop -> T) (P : mop -> Prop) (I : T -> midi -> Prop) :
  (forall op h s s' o, P op -> mop_ok op -> midi_ok s -> I h s -> steps s op s' o -> midi_ok s' -> I (f h op) s') ->
  forall ops h s s' o, Forall P ops -> Forall mop_ok ops -> midi_ok s -> I h s -> midi_run ops s = WDone s' o ->
  midi_ok s' /\ I (fold_left f ops h) s'.
Proof.
  intros Hstep. induction ops as [|op t IH]; intros h s s' o HP Ho Hs HI H; cbn [midi_run fold_left] in *.
  - injection H as <- <-. auto.
  - apply wbind_inv in H as (s1 & o1 & o2 & H1 & H2 & ->). apply Forall_inv in HP as HP0. apply Forall_inv in Ho as Ho0.
    destruct (step_ok _ _ _ _ Hs Ho0 H1) as [Hs1 _].
    eapply IH; [exact (Forall_inv_tail HP)|exact (Forall_inv_tail Ho)|exact Hs1| |exact H2].
    exact (Hstep op h s s1 o1 HP0 Ho0 Hs HI H1 Hs1).
Qed.
Lemma boot_induction {T : Type} (f : T -> mop -> T) (h0 : T) (P : mop -> Prop) (I : T -> midi -> Prop) :
  I h0 booted ->
  (forall op h s s' o, P op -> mop_ok op -> midi_ok s -> I h s -> steps s op s' o -> midi_ok s' -> I (f h op) s') ->
  forall ops s o, Forall P ops -> boots_to ops s o -> midi_ok s /\ I (fold_left f ops h0) s.
Proof.
  intros H0 Hstep ops s o HP Hb. destruct (boots_run _ _ _ Hb) as (Ho & o' & E & _).
  eapply run_induction; [exact Hstep|exact HP|exact Ho|exact booted_ok|exact H0|exact E].
Qed.
Lemma boots_ok ops s o : boots_to ops s o -> midi_ok s.
Proof.
  intros H. apply (boot_induction (fun (h : unit) _ => h) tt (fun _ => True) (fun _ _ => True) I) in H;
    [apply H|auto|]. apply Forall_forall. auto.
Qed.
Lemma boots_snoc ops op s s' o o' : boots_to ops s o -> mop_ok op -> steps s op s' o' -> boots_to (ops ++ [op]) s' (o ++ o').
Proof.
  intros Hb Hop Hst. destruct (boots_run _ _ _ Hb) as (Ho & o1 & E & ->). split.
  - apply Forall_app. split; [exact Ho|constructor; [exact Hop|constructor]].
  - rewrite midi_boot_eq.
    assert (G : forall l s0 o0, midi_run l s0 = WDone s o0 -> midi_run (l ++ [op]) s0 = WDone s' (o0 ++ o')).
    { induction l as [|x t IH]; intros s0 o0 H; cbn [app midi_run] in *.
      - injection H as <- <-. unfold steps in Hst. rewrite Hst. unfold wbind, wret. rewrite app_nil_r. reflexivity.
      - apply wbind_inv in H as (s1 & o2 & o3 & H1 & H2 & ->). rewrite H1. unfold wbind. rewrite (IH _ _ H2), app_assoc. reflexivity. }
    unfold wbind. rewrite (G _ _ _ E), app_assoc. reflexivity.
Qed.
