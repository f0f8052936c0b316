(** The release of a PSG note. *)
From Verif Require Import Base BaseLemmas PitchModel PitchSpec PitchProofs PsgModel PsgSpec PsgEnvProofs SynthModel.
From Verif Require Import MidiModel MidiSpec MidiProofs MidiOkProofs MidiEqProofs MidiEffectProofs MidiNoteProofs MidiCallProofs MidiChanProofs MidiTuneProofs MidiDevProofs MidiInvProofs MidiCarryProofs MidiStaticProofs MidiPlaceProofs.
From Verif Require Import DevModel DevSpec DevProofs AppModel AppSpec AppProofs AppTraceProofs AppClaimsProofs AppViewProofs SoundSpec AppSoundProofs AppToneProofs AppNoteProofs SongSpec SongProofs SongNoteProofs SongPlayProofs.
Local Notation held := PsgSpec.held.
Local Notation carried := MidiCarryProofs.carried.

(** ** The voice after the release *)
Definition resting (s : midi) (n c : Z) (d : dev) : Prop := dev_at s (6 + n) d /\ d_on d = false /\ d_midi d = c.
Lemma rest_step op n c s s' cs d : is_psg n -> mop_ok op -> midi_ok s -> leaves_note c op -> on_channel op <> Some c -> steps s op s' cs ->
  (c = 6 + n /\ static_map s) \/ (forall a q v, op <> MNoteOn a q v) -> resting s n c d ->
  resting s' n c d /\ filter (mine n) (flat_map psg_calls cs) = [].
Proof.
  intros Hn Hop Hs (L1 & L2 & L3 & L4 & L5) On E St (Hd & Hoff & Hmi).
  destruct (ok_dev _ _ _ Hs Hd) as [Hdok _]. destruct (psg_shape n d Hn (proj1 Hdok)) as [Ops Num].
  assert (KO : forall a, on_channel op = Some a -> ~ reassigning op -> ~ is_note_on op -> resting s' n c d /\ filter (mine n) (flat_map psg_calls cs) = []).
  { intros a Ha Nr No. assert (Nac : a <> c) by congruence. destruct (other_devices op s s' cs a Hs Hop Ha Nr E) as [KD KR].
    split; [split; [apply (KD _ _ Hd); [congruence|right; exact No]|auto]|].
    apply mine_others. intros x Hx F. rewrite Forall_forall in KR. destruct (KR x Hx) as (K1 & _). destruct (K1 _ F) as (j & e & He & Op & W).
    injection W as W1 W2. destruct (ok_dev _ _ _ Hs He) as [Eok Ej]. assert (j = 6 + n) by (apply (psg_device n j e); auto; apply Eok). subst j.
    unfold dev_at in He, Hd. rewrite Hd in He. injection He as <-. destruct Op as [Op|(Op & _)]; [congruence|contradiction]. }
  assert (R0 : resting s n c d) by (split; [exact Hd|auto]).
  destruct op as [a q v|a q|a k v|a q|a b|data| | |cb]; cbn [on_channel] in On.
  - destruct St as [[Ec St]|St]; [|exfalso; eapply St; reflexivity]. assert (Nac : a <> c) by congruence.
    destruct (Z.eq_dec v 0) as [->|Nv].
    + destruct Hop as (Ha & Hq & _). assert (E' : steps s (MNoteOff a q) s' cs) by exact E.
      destruct (other_devices (MNoteOff a q) s s' cs a Hs (conj Ha Hq) eq_refl ltac:(intros [(x & y & [=])|[(x & y & [=])|(x & y & [=])]]) E') as [KD KR].
      split; [split; [apply (KD _ _ Hd); [congruence|right; intros (x & y & z & [=])]|auto]|].
      apply mine_others. intros x Hx F. rewrite Forall_forall in KR. destruct (KR x Hx) as (K1 & _). destruct (K1 _ F) as (j & e & He & Op & W).
      injection W as W1 W2. destruct (ok_dev _ _ _ Hs He) as [Eok Ej]. assert (j = 6 + n) by (apply (psg_device n j e); auto; apply Eok). subst j.
      unfold dev_at in He, Hd. rewrite Hd in He. injection He as <-. destruct Op as [Op|((x0 & y0 & z0 & [=]) & _)]. congruence.
    + destruct Hop as (Ha & Hq & Hv'). destruct (ok_ch_get s a Hs Ha) as (m0 & Hm & _).
      destruct (midi_note_on_eq a q v s m0 Hs Ha Hq Nv Hm) as (s1 & o1 & E1 & R). unfold steps in E. cbn [midi_step] in E. rewrite E1 in E. injection E as <- <-.
      assert (Other : forall i e x, chosen s m0 a = Some i -> zget (md_dev s) i = Some e -> zget (zset (md_dev s) i x) (6 + n) = Some d).
      { intros i e x C He. destruct (static_chosen s m0 a i e St C He) as [-> _]. rewrite zget_zset_other by lia. exact Hd. }
      assert (Quiet : forall i e m, chosen s m0 a = Some i -> zget (md_dev s) i = Some e -> forall e', d_ops e' = d_ops e -> d_num e' = d_num e -> filter (mine n) (flat_map psg_calls (start_calls m a q v e')) = []).
      { intros i e m C He e' O1 O2. destruct (static_chosen s m0 a i e St C He) as [-> _]. apply mine_others. intros x Hx F.
        assert (W := start_calls_voice _ _ _ _ _ _ _ Hx F). injection W as W1 W2. destruct (ok_dev _ _ _ Hs He) as [Eok Ej].
        assert (a = 6 + n) by (apply (psg_device n a e); [exact Hn|exact Ej|apply Eok|congruence|congruence]). lia. }
      destruct R as [T|i e st T C He V So K Po Ne|i e st T C He V So K Po|i e T C He V].
      * auto.
      * split; [|reflexivity]. split; [exact (Other i e _ C He)|auto].
      * split; [split; [exact (Other i e _ C He)|auto]|]. eapply Quiet; eauto.
      * split; [split; [exact (Other i e _ C He)|auto]|]. eapply Quiet; eauto.
  - apply (KO a eq_refl); [intros [(x & y & [=])|[(x & y & [=])|(x & y & [=])]]|intros (x & y & z & [=])].
  - destruct Hop as (Ha & Hk & Hv). destruct (Z.eq_dec k 78) as [K78|K78].
    2:{ apply (KO a eq_refl); [|intros (x & y & z & [=])]. intros [X|[X|(x & y & [= _ X _])]]; [apply L1; left; exact X|apply L1; right; left; exact X|congruence]. }
    unfold steps in E. cbn [midi_step] in E. destruct (ok_ch_get _ _ Hs Ha) as (ma & Hma & _).
    destruct (midi_cc_result _ _ _ _ ma _ _ Hs Ha Hv Hma E) as (o' & R & ->). clear E KO.
    destruct R as [m' Hf|Hk'|Hk'|Hk'|s1 Hk' E|Hk'|s1 o1 Hk' E|Hk' _|Hk' Hr|Hk'|o1 Hk' _|Hk'|devs o1 Hk' HH]; try (exfalso; lia).
    + subst k. discriminate Hf.
    + exfalso. apply Hk'. subst k. cbn. tauto.
    + split.
      * assert (Dv : zget devs (6 + n) = Some d).
        { destruct HH as [[-> _]|(-> & _)]; [exact Hd|]. rewrite dac_devs_get. unfold dev_at in Hd. rewrite Hd. cbn [option_map]. unfold dac_dev. unfold is_psg in Hn. replace (6 + n =? 5) with false by lia. reflexivity. }
        split; [exact Dv|auto].
      * apply mine_others. intros x Hx F. apply in_app_or in Hx as [Hx|Hx].
        -- destruct HH as [[_ ->]|(_ & _ & _ & Fo & _)]; [destruct Hx|]. rewrite Forall_forall in Fo. rewrite (Fo x Hx) in F. discriminate.
        -- cbn [md_cb md_set_dev] in Hx. destruct (md_cb s); [destruct Hx as [<-|[]]; discriminate|destruct Hx].
  - apply (KO a eq_refl); [intros [(x & y & [=])|[(x & y & [=])|(x & y & [=])]]|intros (x & y & z & [=])].
  - apply (KO a eq_refl); [intros [(x & y & [=])|[(x & y & [=])|(x & y & [=])]]|intros (x & y & z & [=])].
  - clear KO. unfold steps in E. cbn [midi_step] in E. apply midi_sysex_result in E. destruct E as [|t s1 o1 Ed E|a b s1 Ed E|a Ed|a Ed|a Ed|a Ed|o1 Q];
      try (split; [exact R0|reflexivity]).
    + exfalso. apply L2. exists t. rewrite Ed. reflexivity.
    + exfalso. apply L1. right; right; left. exists [a; b]. unfold own_sysex. rewrite Ed. reflexivity.
    + exfalso. apply L1. right; right; right. exists [a]. unfold own_sysex. rewrite Ed. reflexivity.
    + split; [exact R0|]. apply mine_others. intros x Hx F. rewrite Forall_forall in Q. destruct (Q x Hx) as [Q1 _]. unfold for_psg in F. congruence.
  - contradiction.
  - clear KO. unfold steps in E. cbn [midi_step] in E. rewrite (midi_tick_eq _ Hs) in E. injection E as <- <-.
    assert (T : tick_dev (md_ch s) d = d /\ tick_calls (md_ch s) d = []).
    { unfold tick_dev, tick_calls. destruct (zget _ _); [|auto]. rewrite Hoff, andb_false_r. auto. }
    split.
    + split; [unfold dev_at; cbn [md_dev md_set_dev]; rewrite zget_map; unfold dev_at in Hd; rewrite Hd; cbn [option_map]; f_equal; apply T|auto].
    + rewrite (mine_devices n s _ d Hn Hs Hd); [destruct T as [_ ->]; reflexivity|].
      intros e x Hx. left. unfold tick_calls in Hx. destruct (zget _ _); [|destruct Hx]. destruct (_ && _); [|destruct Hx]. unfold glide_calls in Hx.
      destruct (_ || _); [destruct Hx|]. destruct Hx as [<-|[]]. cbn. unfold glide_dev. destruct (_ || _); [reflexivity|]. cbv zeta. destruct (_ || _); reflexivity.
  - injection E as <- <-. split; [exact R0|reflexivity].
Qed.
Lemma leaves_maps c m : leaves_note c m -> ~ remaps m.
Proof. intros (A & B & _) [X|[X|[X|X]]]; [apply A; left; exact X|apply A; right; right; left; exact X|apply A; right; right; right; exact X|exact (B X)]. Qed.
Lemma tick_leaves c : leaves_note c MTick.
Proof.
  split; [intros [(a & b & [=])|[(a & b & [=])|[(a & [=])|(a & [=])]]]|]. split; [intros (t & [=])|]. split; [intros (t & [=])|]. split; [discriminate|exact Logic.I].
Qed.
Lemma score_rest n c after : is_psg n -> forall s0 s2 po d, midi_ok s0 -> Forall aop_ok after -> (forall m, In (AMsg m) after -> leaves_note c m /\ on_channel m <> Some c) ->
  (c = 6 + n /\ static_map s0) \/ (forall a q v, ~ In (AMsg (MNoteOn a q v)) after) -> score s0 after s2 po -> resting s0 n c d ->
  resting s2 n c d /\ filter (mine n) po = [] /\ midi_ok s2 /\ (static_map s0 -> static_map s2).
Proof.
  intros Hn. induction after as [|op after IH] using rev_ind; intros s0 s2 po d Hs Ho L St H R.
  - inversion H as [E E1 E2|a s1 pa x s2' cs S T E E1 E2]; [|destruct a; discriminate]. subst. auto.
  - apply score_snoc in H as (s1 & pa & cs & S & T & ->). apply Forall_app in Ho as [Ho1 Ho2]. apply Forall_inv, message_ok in Ho2.
    destruct (IH s0 s1 pa d Hs Ho1) as (R1 & F1 & Hs1 & St1); auto.
    { intros m Hm. apply L, in_or_app. left; exact Hm. }
    { destruct St as [St|St]; [left; exact St|right]. intros a q v X. apply (St a q v), in_or_app. left; exact X. }
    assert (Lo : leaves_note c (message op) /\ on_channel (message op) <> Some c).
    { destruct op as [m|]; [apply L, in_or_app; right; left; reflexivity|]. split; [apply tick_leaves|discriminate]. }
    assert (Hs2 := proj1 (step_ok _ _ _ _ Hs1 Ho2 T)).
    destruct (rest_step (message op) n c s1 s2 cs d Hn Ho2 Hs1 (proj1 Lo) (proj2 Lo) T) as [R2 F2]; auto.
    { destruct St as [[Ec St]|St]; [left; auto|right]. intros a q v X. destruct op as [m|]; [|discriminate]. cbn [message] in X. subst m. apply (St a q v), in_or_app. right; left; reflexivity. }
    split; [exact R2|]. split; [rewrite !filter_app, tick_mine, F1, F2; reflexivity|]. split; [exact Hs2|].
    intros X. exact (static_step (message op) tt s1 s2 cs (leaves_maps _ _ (proj1 Lo)) Ho2 Hs1 (St1 X) T Hs2).
Qed.

(** ** The release *)
Lemma no_other_key ops s cs c p m : boots_to (MCallback true :: map message ops) s cs -> ch_at s c m -> (forall q, In (c, q) (MidiSpec.held (map message ops)) -> q = p) -> off_next m p = 0.
Proof.
  intros B Hm K.
  assert (X : stack_inv (MidiSpec.held (MCallback true :: map message ops)) s).
  { apply (boot_induction held_after [] (fun _ => True) stack_inv) with (o := cs); [| |apply Forall_forall; intros; exact Logic.I|exact B].
    - intros b x Hx. destruct (MidiHistProofs.booted_ch _ _ Hx) as (-> & _). constructor.
    - intros op h s0 s' o' _ H2 H3 H4 H5 _. apply (stack_step op h s0 s' o'); assumption. }
  change (MidiSpec.held (MCallback true :: map message ops)) with (MidiSpec.held (map message ops)) in X.
  assert (S := X c m Hm). unfold off_next, off_stack.
  assert (KZ : forall q, In q (keys (m_np m)) -> q = p).
  { intros q Hq. apply in_rev in Hq. assert (I : forall a l, sublist a l -> forall x, In x a -> In x l) by (induction 1; cbn; intuition).
    apply (I _ _ S) in Hq. unfold held_on in Hq. apply in_map_iff in Hq as ([a b] & Eb & Hf). apply filter_In in Hf as [Hf Ea]. cbn in Eb, Ea. apply Z.eqb_eq in Ea. subst. apply K, Hf. }
  replace (filter (fun x => negb (x =? p)) (keys (m_np m))) with (@nil Z); [reflexivity|].
  symmetry. clear S. induction (keys (m_np m)) as [|x t IH]; [reflexivity|]. cbn [filter]. rewrite (KZ x (or_introl eq_refl)), Z.eqb_refl. cbn [negb]. apply IH. intros q Hq. apply KZ. right; exact Hq.
Qed.
Lemma release_step ops cs0 s s' cs n c p op d m : is_psg n -> boots_to (MCallback true :: map message ops) s cs0 -> midi_ok s -> mop_ok op -> lets_go ops c p n op -> steps s op s' cs ->
  sounding s n c p d m -> (c = 6 + n -> without remaps ops -> d_glide d = 0) ->
  (exists d', resting s' n c d') /\ exists rel, filter (mine n) (flat_map psg_calls cs) = [rel] /\ release n rel /\ forall x, asked_volume n x [rel] = x.
Proof.
  intros Hn B Hs Ho [(v & Hop)|(Hop & Ec & W & K)] E (Hd & Hon & Hmi & Hp & Hce & Hm & Hpo) Hg.
  - assert (Hk : exists k, op = MCc c k v /\ (k = 123 \/ k = 120)) by (destruct Hop as [-> | ->]; eauto). destruct Hk as (k & -> & Hk). destruct Ho as (Hc & _ & Hv).
    destruct (psg_shape n d Hn ltac:(destruct (ok_dev _ _ _ Hs Hd) as [X _]; apply X)) as [Ops Num].
    unfold steps in E. cbn [midi_step] in E. destruct (midi_cc_result _ _ _ _ m _ _ Hs Hc Hv Hm E) as (o' & R & ->). clear E.
    destruct R as [m' Hf|Hk'|Hk'|Hk'|s1 Hk' E|Hk'|s1 o1 Hk' E|Hk' _|Hk' Hr|Hk'|o1 Hk' _|Hk'|devs o1 Hk' HH]; try (exfalso; lia).
    + exfalso. destruct Hk as [-> | ->]; discriminate Hf.
    + split.
      * exists (d_set_pitch (d_set_on d false) 0). split; [|split; [reflexivity|exact Hmi]]. unfold dev_at. cbn [md_dev md_set_dev]. rewrite zget_map. unfold dev_at in Hd. rewrite Hd. cbn [option_map]. unfold at_chan. rewrite Hmi, Z.eqb_refl. reflexivity.
      * exists (PAllOff n). split; [|split; [reflexivity|reflexivity]].
        rewrite flat_map_app, filter_app, (mine_devices n s _ d Hn Hs Hd).
        -- unfold calls_at. rewrite Hmi, Z.eqb_refl, Ops, Num. cbn [flat_map psg_calls Datatypes.app filter mine]. rewrite Z.eqb_refl. cbn [Datatypes.app].
           rewrite mine_others; [reflexivity|]. intros x Hx F. cbn [md_cb md_set_dev] in Hx. destruct (md_cb s); [destruct Hx as [<-|[]]; discriminate|destruct Hx].
        -- apply calls_voice. intros e x [<-|[]]. left; reflexivity.
    + exfalso. apply Hk'. destruct Hk as [-> | ->]; cbn; tauto.
  - destruct (psg_shape n d Hn ltac:(destruct (ok_dev _ _ _ Hs Hd) as [X _]; apply X)) as [Ops Num].
    assert (E' : midi_note_off c p s = WDone s' cs) by (destruct Hop as [-> | ->]; exact E).
    assert (Hc : is_chan c) by (destruct (ok_ch _ _ _ Hs Hm); unfold is_chan; lia).
    destruct (midi_note_off_eq c p s m Hs Hc Hm) as (st & _ & _ & E2). rewrite E2 in E'. injection E' as <- <-.
    assert (Fb : falls_back s m c p = false) by (unfold falls_back; rewrite (no_other_key _ _ _ _ _ _ B Hm K); cbn; apply andb_false_r).
    assert (Sv : serves_note c p d = true) by (unfold serves_note, isChannelPlayingNote; rewrite (Hg Ec W), Hmi, Hp, Hon, !Z.eqb_refl; reflexivity).
    split.
    + exists (off_dev d). split; [|split; [reflexivity|exact Hmi]]. unfold dev_at. cbn [md_dev md_set_dev md_set_ch]. rewrite zget_map. unfold dev_at in Hd. rewrite Hd. cbn [option_map]. unfold note_off_dev. rewrite Sv, Fb. reflexivity.
    + exists (PNoteOff n p). split; [|split; [reflexivity|reflexivity]]. rewrite (mine_devices n s _ d Hn Hs Hd).
      * unfold note_off_calls, off_calls. rewrite Fb, Sv, Ops, Num. cbn [flat_map psg_calls Datatypes.app filter mine]. rewrite Z.eqb_refl. reflexivity.
      * intros e x Hx. left. unfold note_off_calls, off_calls in Hx. rewrite Fb in Hx. destruct (serves_note c p e); [destruct Hx as [<-|[]]; reflexivity|destruct Hx].
Qed.
Lemma filter_single {A} (f : A -> bool) l x : filter f l = [x] -> exists a b, l = a ++ x :: b /\ filter f a = [] /\ filter f b = [].
Proof.
  induction l as [|y t IH]; [discriminate|]. cbn [filter]. destruct (f y) eqn:F.
  - intros [= -> E]. exists [], t. auto.
  - intros E. destruct (IH E) as (a & b & -> & A1 & A2). exists (y :: a), b. cbn [filter]. rewrite F. auto.
Qed.
Lemma mine_volume n po : forall d, asked_volume n d po = asked_volume n d (filter (mine n) po).
Proof.
  induction po as [|x t IH]; intros d; [reflexivity|].
  destruct x as [|c ? ? ?|c ?|c|c ?|c ?|c ?| |?|c ? ?]; cbn [filter mine]; try (destruct (c =? n) eqn:E; cbn [asked_volume]; rewrite ?E); try apply IH; cbn [asked_volume]; apply IH.
Qed.

Section Release.
Context (r : rom) (hw : hardware) (mem : list Z) (before : list aop) (c p v n : Z).
Local Notation ms := (map message before).
Context (Hn : is_psg n) (Hv : 1 <= v) (G : given_psg r hw mem before c p v n).
Context (W1 : without remapping before) (W2 : without (eq MReset) before) (Gl : tn_glide (tuned ms) c = false).
Context (L1 : 0 <= bent ms c p) (L2 : 45 <= pitched ms c p / 100).
Context (more : list aop) (U : undisturbed c more).
Local Notation note := (before ++ AMsg (MNoteOn c p v) :: more).
Context (L3 : 0 <= bent (map message note) c p) (L4 : 0 <= pitched (map message note) c p).
Context (off : mop) (after : list aop) (Go : lets_go note c p n off) (La : left_alone note after c n).
Context (s : app) (tr : list event) (H : history r hw mem (note ++ AMsg off :: after) s tr).

Theorem song_released pre body post junk : voice_envelope r before c (loop_env pre body post junk) -> Forall data_byte pre -> Forall data_byte body -> Forall data_byte post -> body <> [] ->
  psg_sounds (rom_pal r) tr n (st_vol (settings (map message note) c)) v (pitched (map message note) c p) (released pre body post (frames more) (frames after)).
Proof.
  intros V F1 F2 F3 N.
  destruct (history_app _ _ _ note _ _ _ H) as (s1 & tr1 & H1).
  destruct (song_run r hw mem before c p v n Hn Hv G W1 W2 Gl L1 L2 more s1 tr1 H1 U L3 L4) as (pb & q & ce & pm & po1 & d & m & Sc1 & Ep & Ca & So & Gd & _ & _ & NR & Lq & Qt & Tk & Sel & A1 & A2 & A3).
  assert (H' := H). replace (note ++ AMsg off :: after) with ((note ++ [AMsg off]) ++ after) in H' by (rewrite <- app_assoc; reflexivity).
  destruct (history_score _ _ _ _ _ _ H') as (po & Sc & Dn & Pk).
  apply score_app in Sc as (s2 & px & py & Sx & Sy & ->). apply score_snoc in Sx as (s1' & pw & cs & Sw & St & ->). cbn [tick message Datatypes.app] in *.
  destruct (score_same _ _ _ _ _ _ Sc1 Sw) as [E1 <-]. subst s1'.
  assert (Ok : Forall aop_ok ((note ++ [AMsg off]) ++ after)) by apply H'. apply Forall_app in Ok as [Ok1 Ok2]. apply Forall_app in Ok1 as [Ok0 Oko]. apply Forall_inv in Oko.
  destruct (history_played _ _ _ _ _ _ H1) as ((Hs1 & _) & cs1 & B1 & _).
  assert (Gd' : c = 6 + n -> without remaps note -> d_glide d = 0) by (intros X Y; apply Gd; [exact X|apply without_app in Y; apply Y]).
  destruct (release_step note cs1 _ _ _ n c p off d m Hn B1 Hs1 Oko Go St So Gd') as ((d' & Re) & rel & Fi & Rel & _).
  destruct (filter_single _ _ _ Fi) as (la & lb & El & Fa & Fb).
  assert (Hs2 := proj1 (step_ok _ _ _ _ Hs1 Oko St)).
  assert (Nof : off <> MReset /\ ~ is_sysex_cmd 6 off /\ ~ remaps off).
  { destruct Go as [(w & [-> | ->])|([-> | ->] & _)]; (split; [discriminate|]; split; [intros (l & [=])|]); intros [(x & y & [=])|[(x & [=])|[(x & [=])|(x & [=])]]]. }
  destruct Nof as (No1 & No2 & No3).
  destruct La as [La1 La2].
  assert (La3 : (c = 6 + n /\ static_map s2) \/ (forall a q v, ~ In (AMsg (MNoteOn a q v)) after)).
  { destruct La2 as [[Ec Wr]|X]; [left|right; exact X]. split; [exact Ec|]. exact (static_step off tt _ _ _ No3 Oko Hs1 (static_before _ _ _ B1 Wr) St Hs2). }
  destruct (score_rest n c after Hn _ _ _ d' Hs2 Ok2 La1 La3 Sy Re) as (_ & Fy & _).
  destruct (step_plain _ _ _ _ St) as [P1 P2]. rewrite El in P1, P2.
  destruct (score_keeps _ _ _ _ Hs2 Ok2 Sy) as (_ & K2 & K3 & _).
  assert (Wr : without (eq MReset) after) by (intros x Hx Ex; destruct (La1 x Hx) as [(_ & _ & _ & X & _) _]; apply X; symmetry; exact Ex).
  assert (Wl : without (is_sysex_cmd 6) after) by (intros x Hx; destruct (La1 x Hx) as [(_ & _ & X & _) _]; exact X).
  destruct (K2 Wr) as [K4 _]. specialize (K3 Wl).
  assert (EE : boot_po ++ (po1 ++ flat_map psg_calls cs) ++ py = pb ++ PNoteOn n q ce v :: (pm ++ la) ++ rel :: (lb ++ py)).
  { rewrite El. rewrite !app_assoc. rewrite Ep. repeat (rewrite <- app_assoc; cbn [Datatypes.app]). reflexivity. }
  assert (Q : forall x, In x ((pm ++ la) ++ (lb ++ py)) -> quiet n x).
  { assert (Qo : forall l, filter (mine n) l = [] -> ~ In PReset l -> (forall e, ~ In (PLoad e) l) -> forall x, In x l -> quiet n x).
    { intros l Hf Hr Hl. apply gentle_quiet; auto. rewrite Hf. constructor. }
    intros x Hx. apply in_app_or in Hx as [Hx|Hx]; apply in_app_or in Hx as [Hx|Hx].
    - exact (Qt x Hx).
    - apply (Qo la Fa); [intros X; apply (P1 No1), in_or_app; left; exact X|intros e X; apply (P2 No2 e), in_or_app; left; exact X|exact Hx].
    - apply (Qo lb Fb); [intros X; apply (P1 No1), in_or_app; right; right; exact X|intros e X; apply (P2 No2 e), in_or_app; right; right; exact X|exact Hx].
    - exact (Qo py Fy K4 K3 x Hx). }
  assert (T0 : ticks la = 0 /\ ticks lb = 0).
  { assert (T := ticks_calls cs). rewrite El, ticks_app in T. assert (X : ticks (rel :: lb) = ticks lb) by (destruct rel; try contradiction Rel; reflexivity). rewrite X in T.
    assert (Nn : forall l, 0 <= ticks l) by (induction l as [|[] t IH]; cbn [ticks]; lia). assert (Y := Nn la). assert (Y' := Nn lb). lia. }
  assert (Tm : ticks (pm ++ la) = frames more) by (rewrite ticks_app; lia).
  assert (Ta : ticks (lb ++ py) = frames after) by (rewrite ticks_app, (score_ticks _ _ _ _ Sy); lia).
  assert (X : plays (rom_pal r) n (pb ++ PNoteOn n q ce v :: (pm ++ la) ++ rel :: (lb ++ py)) (filter psg_event tr) (released pre body post (frames more) (frames after))).
  { rewrite <- Tm, <- Ta. assert (Hr := proj1 H).
    refine (c67_released _ _ _ pre body post junk F1 F2 F3 N pb n q ce v (pm ++ la) rel (lb ++ py) _ _ _ NR Lq Q Rel (Sel _ V) _).
    - apply Hr.
    - rewrite <- EE. apply Forall_app. split; [exact boot_pops|exact Pk].
    - rewrite <- EE. exact Dn. }
  assert (As : forall f : Z -> list pop -> Z, (forall a b x, f x (a ++ b) = f (f x a) b) -> (forall po x, f x po = f x (filter (mine n) po)) -> (forall x, f x [] = x) -> (forall x, f x [rel] = x) ->
     forall x, f x (pb ++ PNoteOn n q ce v :: (pm ++ la) ++ rel :: (lb ++ py)) = f x (pb ++ PNoteOn n q ce v :: pm)).
  { intros f Ha Hf Hnil Hrel x.
    replace (pb ++ PNoteOn n q ce v :: (pm ++ la) ++ rel :: (lb ++ py)) with ((pb ++ PNoteOn n q ce v :: pm) ++ la ++ [rel] ++ lb ++ py) by (repeat (rewrite <- app_assoc; cbn [Datatypes.app]); reflexivity).
    rewrite Ha. rewrite (Ha la), (Hf la), Fa, Hnil, (Ha [rel]), Hrel, (Ha lb), (Hf lb), Fb, Hnil, (Hf py), Fy. apply Hnil. }
  unfold plays in X. unfold psg_sounds.
  rewrite (As (asked_volume n) (fun a b x => asked_volume_app n a x b) (mine_volume n) (fun _ => eq_refl)) in X by (intros; destruct rel; try contradiction Rel; reflexivity).
  rewrite (As (asked_velocity n) (fun a b x => asked_velocity_app n a x b) (fun po x => proj2 (mine_asks n po x)) (fun _ => eq_refl)) in X by (intros; destruct rel; try contradiction Rel; reflexivity).
  rewrite (As (asked_pitch n) (fun a b x => asked_pitch_app n a x b) (fun po x => proj1 (mine_asks n po x)) (fun _ => eq_refl)) in X by (intros; destruct rel; try contradiction Rel; reflexivity).
  rewrite A1, A2, A3, att_filter, tone_filter in X. exact X.
Qed.
End Release.
Theorem note_released r hw mem before c p v n more off after s tr pre body post junk : psg_note r hw mem before c p v n ->
  history r hw mem ((before ++ AMsg (MNoteOn c p v) :: more) ++ AMsg off :: after) s tr -> undisturbed c more ->
  in_range (before ++ AMsg (MNoteOn c p v) :: more) c p ->
  lets_go (before ++ AMsg (MNoteOn c p v) :: more) c p n off -> left_alone (before ++ AMsg (MNoteOn c p v) :: more) after c n ->
  voice_envelope r before c (loop_env pre body post junk) -> Forall data_byte pre -> Forall data_byte body -> Forall data_byte post -> body <> [] ->
  note_sounds r (before ++ AMsg (MNoteOn c p v) :: more) tr n c p v (released pre body post (frames more) (frames after)).
Proof.
  intros (A1 & A2 & A3 & A4 & A5 & A6 & A7 & A8) H U [L1 L2] G La. exact (song_released r hw mem before c p v n A1 A2 A3 A4 A5 A6 A7 A8 more U L1 L2 off after G La s tr H pre body post junk).
Qed.
Theorem note_fades r hw mem before c p v n more off after s tr pre body post junk : psg_note r hw mem before c p v n ->
  history r hw mem ((before ++ AMsg (MNoteOn c p v) :: more) ++ AMsg off :: after) s tr -> undisturbed c more ->
  in_range (before ++ AMsg (MNoteOn c p v) :: more) c p ->
  lets_go (before ++ AMsg (MNoteOn c p v) :: more) c p n off -> left_alone (before ++ AMsg (MNoteOn c p v) :: more) after c n ->
  voice_envelope r before c (loop_env pre body post junk) -> Forall data_byte pre -> Forall data_byte body -> Forall data_byte post -> body <> [] ->
  len body + len post <= frames after -> chip_att att_at_boot tr n = 15.
Proof.
  intros A H U L G La V F1 F2 F3 N Le.
  assert (X := note_released r hw mem before c p v n more off after s tr pre body post junk A H U L G La V F1 F2 F3 N).
  assert (E : released pre body post (frames more) (frames after) = None).
  { unfold released. destruct (_ <? _); [reflexivity|]. unfold once. apply zget_None. rewrite app_length, Nat2Z.inj_add. unfold len in *.
    assert (0 < Z.of_nat (length body)) by (destruct body; [contradiction N; reflexivity|cbn [length]; lia]).
    assert (Y := Z.mod_pos_bound (frames more - Z.of_nat (length pre)) (Z.of_nat (length body)) ltac:(lia)). lia. }
  rewrite E in X. exact X.
Qed.
