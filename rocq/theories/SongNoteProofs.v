(** A PSG note from the message to the end of its envelope. *)
From Verif Require Import Base BaseLemmas PitchModel PitchSpec PitchProofs PsgModel PsgSpec PsgEnvProofs SynthModel.
From Verif Require Import MidiModel MidiSpec MidiProofs MidiOkProofs MidiEqProofs MidiEffectProofs MidiNoteProofs MidiCallProofs MidiChanProofs MidiTuneProofs MidiDevProofs MidiInvProofs MidiCarryProofs MidiStaticProofs MidiPlaceProofs.
From Verif Require Import DevModel DevSpec DevProofs AppModel AppSpec AppProofs AppTraceProofs AppClaimsProofs SoundSpec AppSoundProofs AppNoteProofs SongSpec SongProofs.

(** ** Calls of one channel *)
Definition mine (n : Z) (x : pop) : bool :=
  match x with
  | PNoteOn c _ _ _ | PNoteOff c _ | PAllOff c | PVolume c _ | PProgram c _ | PPan c _ | PPitch c _ _ => c =? n
  | PReset | PTick | PLoad _ => false
  end.
Lemma mine_other n c : ~ for_psg n c -> filter (mine n) (psg_calls c) = [].
Proof.
  unfold for_psg. intros N.
  destruct c as [v x ? ? ?|v x ?|v x ?|v x ?|v x|v x ?|v x ? ?|? ?|?|?|? ?|?|? ?|?|? ?|?| | | | | |? ? ? ?|? ?]; try reflexivity;
    destruct v; try reflexivity; cbn [psg_calls filter mine call_voice] in *;
    (replace (x =? n) with false by (symmetry; apply Z.eqb_neq; intros ->; apply N; reflexivity)); reflexivity.
Qed.
Lemma mine_others n cs : (forall c, In c cs -> ~ for_psg n c) -> filter (mine n) (flat_map psg_calls cs) = [].
Proof.
  induction cs as [|c t IH]; intros H; [reflexivity|]. cbn [flat_map]. rewrite filter_app, mine_other, IH; [reflexivity| |apply H; left; reflexivity].
  intros x Hx. apply H. right. exact Hx.
Qed.
Lemma mine_asks n po : forall d, asked_pitch n d po = asked_pitch n d (filter (mine n) po) /\ asked_velocity n d po = asked_velocity n d (filter (mine n) po).
Proof.
  induction po as [|x t IH]; intros d; [split; reflexivity|].
  destruct x as [|c ? ? ?|c ?|c|c ?|c ?|c ?| |?|c ? ?]; cbn [filter mine]; try (destruct (c =? n) eqn:E; cbn [asked_pitch asked_velocity]; rewrite ?E; cbn [andb]); try apply IH;
    cbn [asked_pitch asked_velocity]; split; apply IH.
Qed.
(** The device channel that drives PSG channel [n]. *)
Lemma psg_device n j d : is_psg n -> 0 <= j < 13 -> shape_ok j d -> d_ops d = VPsg -> d_num d = n -> j = 6 + n.
Proof.
  intros Hn Hj (S1 & S2 & S3) E1 E2. destruct (Z_lt_dec j 6) as [L|L]; [destruct (S1 L) as [_ [S|[_ S]]]; congruence|].
  destruct (Z_lt_dec j 10); [destruct S2; lia|]. destruct S3 as [_ S]; [lia|congruence].
Qed.
Lemma psg_shape n d : is_psg n -> shape_ok (6 + n) d -> d_ops d = VPsg /\ d_num d = n.
Proof. intros Hn (_ & S & _). unfold is_psg in Hn. destruct S as [A B]; [lia|]. split; [exact B|lia]. Qed.
Lemma mine_devices n s h d : is_psg n -> midi_ok s -> dev_at s (6 + n) d ->
  (forall e x, In x (h e) -> call_voice x = Some (d_ops e, d_num e) \/ call_voice x = None) ->
  filter (mine n) (flat_map psg_calls (flat_map h (md_dev s))) = filter (mine n) (flat_map psg_calls (h d)).
Proof.
  intros Hn Hs Hd Hh.
  assert (X : forall l k, (forall j e, zget l j = Some e -> shape_ok (k + j) e /\ 0 <= k + j < 13) ->
    filter (mine n) (flat_map psg_calls (flat_map h l)) = match zget l (6 + n - k) with Some e => filter (mine n) (flat_map psg_calls (h e)) | None => [] end).
  { induction l as [|e t IH]; intros k Sh.
    - destruct (zget [] (6 + n - k)) eqn:E; [|reflexivity]. assert (R := zget_Some _ _ _ E). cbn in R. lia.
    - cbn [flat_map]. rewrite flat_map_app, filter_app, (IH (k + 1)).
      2:{ intros j x Hx. replace (k + 1 + j) with (k + (j + 1)) by lia. assert (R := zget_Some _ _ _ Hx). apply Sh. rewrite zget_cons.
          replace (j + 1 =? 0) with false by lia. replace (j + 1 - 1) with j by lia. exact Hx. }
      rewrite zget_cons. destruct (Sh 0 e eq_refl) as [Se Re]. rewrite Z.add_0_r in Se, Re. destruct (Z.eqb_spec (6 + n - k) 0) as [E|E].
      + destruct (zget t (6 + n - (k + 1))) eqn:F; [assert (R := zget_Some _ _ _ F); lia|]. apply app_nil_r.
      + rewrite (mine_others n (h e)); [cbn [Datatypes.app]; replace (6 + n - k - 1) with (6 + n - (k + 1)) by lia; reflexivity|].
        intros c Hc F. unfold for_psg in F. destruct (Hh e c Hc) as [Y|Y]; rewrite Y in F; [|discriminate]. injection F as F1 F2.
        apply E. rewrite (psg_device n k e Hn Re Se F1 F2). lia. }
  rewrite (X (md_dev s) 0); [replace (6 + n - 0) with (6 + n) by lia; unfold dev_at in Hd; rewrite Hd; reflexivity|].
  intros j e He. rewrite Z.add_0_l. destruct (ok_dev _ _ _ Hs He) as [A B]. split; [apply A|exact B].
Qed.

(** ** A sounding note is left alone *)
Definition sounding (s : midi) (n c p : Z) (d : dev) (m : mchan) : Prop :=
  dev_at s (6 + n) d /\ d_on d = true /\ d_midi d = c /\ d_pitch d = p /\ d_cents d = 0 /\ ch_at s c m /\ m_porta m = false.
Definition gentle (x : pop) : Prop := match x with PVolume _ _ | PProgram _ _ | PPan _ _ | PPitch _ _ _ => True | _ => False end.

Lemma bend_centre p ce r r' : pc_bend p ce BEND_CENTRE r = pc_bend p ce BEND_CENTRE r'.
Proof. unfold pc_bend, BEND_CENTRE. cbv zeta. reflexivity. Qed.
Lemma eff_centre m m' d d' : d_bend d = BEND_CENTRE -> d_bend d' = BEND_CENTRE -> d_pitch d' = d_pitch d -> d_cents d' = d_cents d -> m_fine m' = m_fine m -> eff m' d' = eff m d.
Proof. unfold eff. intros -> -> -> -> ->. rewrite (bend_centre _ _ (m_range m') (m_range m)). reflexivity. Qed.

(** What a message does to the note, seen by midi_psg.c. *)
Definition kept (s' : midi) (n c p : Z) (d : dev) (m : mchan) (cs : list dcall) : Prop :=
  exists d' m', sounding s' n c p d' m' /\ Forall gentle (filter (mine n) (flat_map psg_calls cs)) /\
    asked_pitch n (total (eff m d)) (filter (mine n) (flat_map psg_calls cs)) = total (eff m' d') /\ d_glide d' = d_glide d.

Lemma kept_same s' n c p d m cs : sounding s' n c p d m -> filter (mine n) (flat_map psg_calls cs) = [] -> kept s' n c p d m cs.
Proof. intros S E. exists d, m. rewrite E. split; [exact S|]. split; [constructor|]. split; reflexivity. Qed.
Lemma calls_voice c h : (forall e x, In x (h e) -> call_voice x = Some (d_ops e, d_num e) \/ call_voice x = None) ->
  forall e x, In x (calls_at c h e) -> call_voice x = Some (d_ops e, d_num e) \/ call_voice x = None.
Proof. intros H e x. unfold calls_at. destruct (_ =? _); [apply H|intros []]. Qed.

Lemma kept_step op n c p s s' cs d m : is_psg n -> mop_ok op -> midi_ok s -> MidiCarryProofs.carried s -> leaves_note c op -> steps s op s' cs ->
  sounding s n c p d m -> kept s' n c p d m cs.
Proof.
  intros Hn Hop Hs Hca (L1 & L2 & L3 & L4 & L5) E (Hd & Hon & Hmi & Hp & Hce & Hm & Hpo).
  assert (Hc : is_chan c) by (destruct (ok_ch _ _ _ Hs Hm); unfold is_chan; lia).
  destruct (ok_dev _ _ _ Hs Hd) as [Hdok _]. destruct (psg_shape n d Hn (proj1 Hdok)) as [Ops Num].
  assert (Hbend : d_bend d = m_bend m) by (apply (Hca (6 + n) d m Hd Hon); rewrite Hmi; exact Hm).
  (* messages of other channels *)
  assert (KO : forall a, on_channel op = Some a -> a <> c -> ~ reassigning op -> kept s' n c p d m cs).
  { intros a Ha Nac Nr. destruct (other_devices op s s' cs a Hs Hop Ha Nr E) as [KD KR].
    apply kept_same.
    - split; [apply (KD _ _ Hd); [congruence|left; exact Hon]|]. repeat (split; [assumption|]). split; [|exact Hpo].
      apply (other_settings op s s' cs a Hs Hop Ha E); congruence.
    - apply mine_others. intros x Hx F. rewrite Forall_forall in KR. destruct (KR x Hx) as (K1 & _). destruct (K1 _ F) as (j & e & He & Op & W).
      injection W as W1 W2. destruct (ok_dev _ _ _ Hs He) as [Eok Ej]. assert (j = 6 + n) by (apply (psg_device n j e); auto; apply Eok). subst j.
      unfold dev_at in He, Hd. rewrite Hd in He. injection He as <-. destruct Op as [Op|(_ & _ & Op & _)]; congruence. }
  (* messages of the same channel *)
  assert (KC : forall g h m', md_dev s' = map (at_chan c g) (md_dev s) -> cs = flat_map (calls_at c h) (md_dev s) \/ (exists t, cs = flat_map (calls_at c h) (md_dev s) ++ t /\ forall x, In x t -> ~ for_psg n x) ->
     md_ch s' = zset (md_ch s) c m' -> m_porta m' = m_porta m -> d_on (g d) = true -> d_midi (g d) = d_midi d -> d_pitch (g d) = d_pitch d -> d_cents (g d) = d_cents d -> d_glide (g d) = d_glide d ->
     (forall e x, In x (h e) -> call_voice x = Some (d_ops e, d_num e) \/ call_voice x = None) ->
     Forall gentle (flat_map psg_calls (h d)) -> asked_pitch n (total (eff m d)) (flat_map psg_calls (h d)) = total (eff m' (g d)) ->
     kept s' n c p d m cs).
  { intros g h m' E1 E2 E3 P1 P2 P3 P4 P5 P6 Hh G A. exists (g d), m'.
    assert (F : filter (mine n) (flat_map psg_calls cs) = filter (mine n) (flat_map psg_calls (h d))).
    { assert (F0 : filter (mine n) (flat_map psg_calls (flat_map (calls_at c h) (md_dev s))) = filter (mine n) (flat_map psg_calls (h d))).
      { rewrite (mine_devices n s _ d Hn Hs Hd (calls_voice c h Hh)). unfold calls_at. rewrite Hmi, Z.eqb_refl. reflexivity. }
      destruct E2 as [->|(t & -> & Ht)]; [exact F0|]. rewrite flat_map_app, filter_app, F0, (mine_others n t Ht), app_nil_r. reflexivity. }
    rewrite F. split; [|split].
    - split; [unfold dev_at; rewrite E1, zget_map; unfold dev_at in Hd; rewrite Hd; cbn [option_map]; unfold at_chan; rewrite Hmi, Z.eqb_refl; reflexivity|].
      split; [exact P2|]. split; [congruence|]. split; [congruence|]. split; [congruence|]. split; [|congruence].
      unfold ch_at. rewrite E3. apply zget_zset_same. eapply zget_Some. exact Hm.
    - rewrite Forall_forall in G |- *. intros x Hx. apply filter_In in Hx as [Hx _]. apply G, Hx.
    - split; [|exact P6]. rewrite <- A. symmetry. apply mine_asks. }
  assert (Zid : zset (md_ch s) c m = md_ch s) by (apply zset_id; exact Hm).
  assert (Mid : map (at_chan c (fun e => e)) (md_dev s) = md_dev s) by apply at_chan_id.
  assert (NCh : forall x, In x (if md_cb s' then [DChange 2 c 0 0] else []) -> ~ for_psg n x).
  { intros x Hx F. destruct (md_cb s'); [destruct Hx as [<-|[]]; discriminate|destruct Hx]. }
  destruct op as [a q v|a q|a k v|a q|a b|data| | |cb]; cbn [mop_ok midi_step] in *.
  - apply (KO a eq_refl L5). intros [(x & y & [=])|[(x & y & [=])|(x & y & [=])]].
  - apply (KO a eq_refl L5). intros [(x & y & [=])|[(x & y & [=])|(x & y & [=])]].
  - destruct Hop as (Ha & Hk & Hv).
    destruct (Z.eq_dec k 78) as [K78|K78].
    { unfold steps in E. cbn [midi_step] in E. destruct (ok_ch_get _ _ Hs Ha) as (ma & Hma & _).
      destruct (midi_cc_result _ _ _ _ ma _ _ Hs Ha Hv Hma E) as (o' & R & ->). clear E KO KC.
      destruct R as [m' Hf|Hk'|Hk'|Hk'|s1 Hk' E|Hk'|s1 o1 Hk' E|Hk' _|Hk' Hr|Hk'|o1 Hk' _|Hk'|devs o1 Hk' HH]; try (exfalso; lia).
      - subst k. discriminate Hf.
      - exfalso. apply Hk'. subst k. cbn. tauto.
      - apply kept_same.
        + assert (Dv : zget devs (6 + n) = Some d).
          { destruct HH as [[-> _]|(-> & _)]; [exact Hd|]. rewrite dac_devs_get. unfold dev_at in Hd. rewrite Hd. cbn [option_map]. unfold dac_dev. unfold is_psg in Hn. replace (6 + n =? 5) with false by lia. reflexivity. }
          repeat (split; [assumption|]); assumption.
        + apply mine_others. intros x Hx F. apply in_app_or in Hx as [Hx|Hx].
          * destruct HH as [[_ ->]|(_ & _ & _ & Fo & _)]; [destruct Hx|]. rewrite Forall_forall in Fo. rewrite (Fo x Hx) in F. discriminate.
          * cbn [md_cb md_set_dev] in Hx. destruct (md_cb s); [destruct Hx as [<-|[]]; discriminate|destruct Hx]. }
    destruct (Z.eq_dec a c) as [->|Nac].
    2:{ apply (KO a eq_refl Nac). intros [X|[X|(x & y & [= _ X _])]]; [apply L1; left; exact X|apply L1; right; left; exact X|congruence]. }
    destruct L5 as [L5|(L65 & L85 & L120 & L123)]; [congruence|].
    unfold steps in E. cbn [midi_step] in E. destruct (midi_cc_result _ _ _ _ m _ _ Hs Hc Hv Hm E) as (o' & R & ->). clear E KO.
    assert (NT : forall b x, In x (if (b : bool) then [DChange 2 c k v] else []) -> ~ for_psg n x).
    { intros b x Hx F. destruct b; [destruct Hx as [<-|[]]; discriminate|destruct Hx]. }
    destruct R as [m' Hf|Hk'|Hk'|Hk'|s1 Hk' E|Hk'|s1 o1 Hk' E|Hk' _|Hk' Hr|Hk'|o1 Hk' HH|Hk'|devs o1 Hk' HH]; try (exfalso; lia).
    + assert (Q : m_porta m' = m_porta m /\ m_range m' = m_range m /\ m_fine m' = m_fine m).
      { unfold cc_field in Hf. destruct (k =? 5); [destruct (zget _ v); [injection Hf as <-; auto|discriminate]|].
        destruct (k =? 86); [destruct (md_nogm s); [discriminate|injection Hf as <-; auto]|].
        destruct (Z.eqb_spec k 65); [contradiction|]. destruct (Z.eqb_spec k 85); [contradiction|].
        destruct (k =? 101); [injection Hf as <-; auto|]. destruct (k =? 100); [injection Hf as <-; auto|discriminate]. }
      destruct Q as (Q1 & Q2 & Q3).
      apply (KC (fun e => e) (fun _ => []) m'); cbn [md_dev md_ch md_set_ch]; try (symmetry; exact Mid); auto; try (intros ? ? []).
      * right. exists (if md_cb s then [DChange 2 c k v] else []). split; [|apply NT].
        replace (flat_map (calls_at c (fun _ : dev => [])) (md_dev s)) with (@nil dcall); [reflexivity|].
        clear. induction (md_dev s) as [|e t IH]; [reflexivity|]. cbn [flat_map]. rewrite <- IH. unfold calls_at. destruct (_ =? _); reflexivity.
      * constructor.
      * cbn. unfold eff. rewrite Q2, Q3. reflexivity.
    + apply (KC (fun e => d_set_vol e v) (fun d => if d_vol d =? v then [] else [DVolume (d_ops d) (d_num d) v]) (m_set_vol m v)); cbn [md_dev md_ch md_set_ch md_set_dev]; auto.
      * right. eexists. split; [reflexivity|apply NT].
      * intros e x. destruct (_ =? _); [intros []|intros [<-|[]]]. left; reflexivity.
      * rewrite Ops. destruct (_ =? _); repeat constructor.
      * rewrite Ops. destruct (_ =? _); reflexivity.
    + apply (KC (fun e => d_set_pan e v) (fun d => if d_pan d =? v then [] else [DPan (d_ops d) (d_num d) v]) (m_set_pan m v)); cbn [md_dev md_ch md_set_ch md_set_dev]; auto.
      * right. eexists. split; [reflexivity|apply NT].
      * intros e x. destruct (_ =? _); [intros []|intros [<-|[]]]. left; reflexivity.
      * rewrite Ops. destruct (_ =? _); repeat constructor.
      * rewrite Ops. destruct (_ =? _); reflexivity.
    + exfalso. apply L1. left. exists c, v. congruence.
    + apply kept_same; [repeat (split; [assumption|]); assumption|]. apply mine_others. intros x [<-|Hx] F; [discriminate|exact (NT _ x Hx F)].
    + exfalso. apply L1. right; left. exists c, v. congruence.
    + apply kept_same; [repeat (split; [assumption|]); assumption|]. apply mine_others. intros x [<-|Hx] F; [discriminate|exact (NT _ x Hx F)].
    + apply (KC (fun e => e) (fun d => if d_bend d =? BEND_CENTRE then [] else [DPitch (d_ops d) (d_num d) (pc_pitch (eff (set_range m v (k =? 6)) d)) (pc_cents (eff (set_range m v (k =? 6)) d))]) (set_range m v (k =? 6)));
        cbn [md_dev md_ch md_set_ch md_set_dev]; try (symmetry; exact Mid); auto.
      * right. eexists. split; [reflexivity|apply NT].
      * intros e x. destruct (d_bend e =? BEND_CENTRE); [intros []|intros [<-|[]]]. left; reflexivity.
      * rewrite Ops. destruct (d_bend d =? BEND_CENTRE); repeat constructor.
      * rewrite Ops, Num. destruct (Z.eqb_spec (d_bend d) BEND_CENTRE) as [Eb|Eb].
        -- cbn. f_equal. apply eff_centre; auto.
        -- cbn [flat_map psg_calls Datatypes.app asked_pitch]. rewrite Z.eqb_refl. reflexivity.
    + apply kept_same; [repeat (split; [assumption|]); assumption|]. apply mine_others. intros x Hx F. exact (NT _ x Hx F).
    + apply kept_same; [repeat (split; [assumption|]); assumption|]. apply mine_others. intros x Hx F. apply in_app_or in Hx as [Hx|Hx]; [|exact (NT _ x Hx F)].
      destruct HH as [->|(j & e & _ & _ & ->)]; [destruct Hx|]. destruct Hx as [<-|[]]. discriminate.
    + apply kept_same; [repeat (split; [assumption|]); assumption|]. apply mine_others. intros x Hx F. apply in_app_or in Hx as [Hx|Hx]; [|exact (NT _ x Hx F)].
      apply in_flat_map in Hx as (e & _ & Hx). unfold calls_at, fm_call in Hx. destruct (_ =? _); [|destruct Hx]. destruct (md_nogm s); [destruct Hx|].
      destruct (fm_parameter _ _ _ _); [destruct Hx as [<-|[]]; discriminate|destruct Hx].
  - destruct (Z.eq_dec a c) as [->|Nac].
    2:{ apply (KO a eq_refl Nac). intros [(x & y & [=])|[(x & y & [=])|(x & y & [=])]]. }
    clear KO. unfold steps in E. cbn [midi_step] in E. rewrite (midi_program_eq _ _ _ m Hm) in E. injection E as E1 E2.
    apply (KC (fun e => d_set_prog e q) (fun d => if d_prog d =? q then [] else [DProgram (d_ops d) (d_num d) q]) (m_set_prog m q)); subst s'; cbn [md_dev md_ch md_set_ch md_set_dev]; auto.
    + right. eexists. split; [symmetry; exact E2|]. intros x Hx F. destruct (md_cb s); [destruct Hx as [<-|[]]; discriminate|destruct Hx].
    + intros e x. destruct (_ =? _); [intros []|intros [<-|[]]]. left; reflexivity.
    + rewrite Ops. destruct (_ =? _); repeat constructor.
    + rewrite Ops. destruct (_ =? _); reflexivity.
  - destruct (Z.eq_dec a c) as [->|Nac].
    2:{ apply (KO a eq_refl Nac). intros [(x & y & [=])|[(x & y & [=])|(x & y & [=])]]. }
    clear KO. unfold steps in E. cbn [midi_step] in E. rewrite (midi_pitch_bend_eq _ _ _ m Hm) in E. injection E as E1 E2.
    apply (KC (fun d => if d_on d then d_set_bend d b else d) (fun d => if d_on d then if d_bend d =? b then []
             else [DPitch (d_ops d) (d_num d) (pc_pitch (eff (m_set_bend m b) (d_set_bend d b))) (pc_cents (eff (m_set_bend m b) (d_set_bend d b)))] else []) (m_set_bend m b));
      subst s'; cbn [md_dev md_ch md_set_ch md_set_dev]; rewrite ?Hon; auto.
    + intros e x. destruct (d_on e); [|intros []]. destruct (_ =? _); [intros []|intros [<-|[]]]. left; reflexivity.
    + rewrite Ops. destruct (_ =? _); repeat constructor.
    + rewrite Ops, Num. destruct (Z.eqb_spec (d_bend d) b) as [<-|Eb].
      * rewrite set_same_bend. reflexivity.
      * cbn [flat_map psg_calls Datatypes.app asked_pitch]. rewrite Z.eqb_refl. reflexivity.
  - clear KO KC. unfold steps in E. cbn [midi_step] in E. apply midi_sysex_result in E. destruct E as [|t s1 o1 Ed E|a b s1 Ed E|a Ed|a Ed|a Ed|a Ed|o1 Q];
      try (apply kept_same; [repeat (split; [assumption|]); assumption|reflexivity]).
    + exfalso. apply L2. exists t. rewrite Ed. reflexivity.
    + exfalso. apply L1. right; right; left. exists [a; b]. unfold own_sysex. rewrite Ed. reflexivity.
    + exfalso. apply L1. right; right; right. exists [a]. unfold own_sysex. rewrite Ed. reflexivity.
    + apply kept_same; [repeat (split; [assumption|]); assumption|]. apply mine_others. intros x Hx F. rewrite Forall_forall in Q. destruct (Q x Hx) as [Q1 _]. unfold for_psg in F. congruence.
  - contradiction.
  - clear KO KC. unfold steps in E. cbn [midi_step] in E. rewrite (midi_tick_eq _ Hs) in E. injection E as <- <-.
    assert (T : tick_dev (md_ch s) d = d /\ tick_calls (md_ch s) d = []).
    { unfold tick_dev, tick_calls. rewrite Hmi. unfold ch_at in Hm. rewrite Hm, Hpo, andb_false_r. auto. }
    apply kept_same.
    + split; [unfold dev_at; cbn [md_dev md_set_dev]; rewrite zget_map; unfold dev_at in Hd; rewrite Hd; cbn [option_map]; f_equal; apply T|].
      repeat (split; [assumption|]); assumption.
    + rewrite (mine_devices n s _ d Hn Hs Hd); [destruct T as [_ ->]; reflexivity|].
      intros e x Hx. left. unfold tick_calls in Hx. destruct (zget _ _); [|destruct Hx]. destruct (_ && _); [|destruct Hx]. unfold glide_calls in Hx.
      destruct (_ || _); [destruct Hx|]. destruct Hx as [<-|[]]. cbn. unfold glide_dev. destruct (_ || _); [reflexivity|]. cbv zeta. destruct (_ || _); reflexivity.
  - injection E as <- <-. apply kept_same; [repeat (split; [assumption|]); assumption|reflexivity].
Qed.
