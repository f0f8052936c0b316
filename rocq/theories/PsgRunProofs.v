(** Histories of PSG operations. *)
From Verif Require Import Base BaseLemmas PitchModel PitchSpec PitchProofs PsgModel PsgSpec PsgProofs.

Section Run.
Context (pal : bool) (envs : list (list Z)) (Henvs : envs_ok envs).

Definition psg_base (ue : Z) (s : psg) : Prop :=
  length (ps_chans s) = 4%nat /\ ue_ok (ps_user s) (ps_userp s) ue.
Definition psg_inv (ue : Z) (s : psg) : Prop :=
  psg_base ue s /\ forall c ch, zget (ps_chans s) c = Some ch -> g_num ch = c /\ chok envs ue ch.

(** Events of one channel. *)
Definition of_chan (c : Z) (e : event) : bool :=
  match e with EvPsgAtt c' _ | EvPsgTone c' _ => c' =? c | _ => false end.
Definition proj (c : Z) (o : list event) : list event := filter (of_chan c) o.

Lemma proj_app c a b : proj c (a ++ b) = proj c a ++ proj c b.
Proof. apply filter_app. Qed.

Lemma chip_att_proj d o c : chip_att d (proj c o) c = chip_att d o c.
Proof.
  unfold chip_att. revert d; induction o as [|e t IH]; intros d; [reflexivity|]. cbn.
  destruct e; cbn; try apply IH; destruct (Z.eqb_spec chan c) as [->|]; cbn; rewrite ?Z.eqb_refl, ?IH; try reflexivity.
Qed.
Lemma chip_tone_proj d o c : chip_tone d (proj c o) c = chip_tone d o c.
Proof.
  unfold chip_tone. revert d; induction o as [|e t IH]; intros d; [reflexivity|]. cbn.
  destruct e; cbn; try apply IH; destruct (Z.eqb_spec chan c) as [->|]; cbn; rewrite ?Z.eqb_refl, ?IH; try reflexivity.
Qed.
Lemma chip_att_app d a b c : chip_att d (a ++ b) c = chip_att (chip_att d a c) b c.
Proof. apply fold_left_app. Qed.
Lemma chip_tone_app d a b c : chip_tone d (a ++ b) c = chip_tone (chip_tone d a c) b c.
Proof. apply fold_left_app. Qed.

Lemma crel_proj_same c o c' : crel c o c' -> proj (g_num c) o = o.
Proof.
  intros (_ & H & _). unfold proj. induction o as [|e t IH]; [reflexivity|]. cbn.
  destruct (H e (or_introl eq_refl)) as [v [-> | ->]]; cbn; rewrite Z.eqb_refl, IH; auto; intros; apply H; right; assumption.
Qed.
Lemma crel_proj_other c o c' d : crel c o c' -> d <> g_num c -> proj d o = [].
Proof.
  intros (_ & H & _) Hne. unfold proj. induction o as [|e t IH]; [reflexivity|]. cbn.
  destruct (H e (or_introl eq_refl)) as [v [-> | ->]]; cbn; (destruct (Z.eqb_spec (g_num c) d); [congruence|]); apply IH; intros; apply H; right; assumption.
Qed.

(** What an operation does to channel [c]. *)
Definition target (c : Z) (op : pop) : option cop :=
  match op with
  | PNoteOn c' p ce v => if (c' =? c) && negb (p <? 45) then Some (CNoteOn p ce v) else None
  | PNoteOff c' _ | PAllOff c' => if c' =? c then Some COff else None
  | PVolume c' v => if c' =? c then Some (CVol v) else None
  | PProgram c' p => if c' =? c then Some (CProg p) else None
  | PPitch c' p ce => if c' =? c then Some (CPitch p ce) else None
  | PTick => Some CTick
  | PReset | PPan _ _ | PLoad _ => None
  end.

Definition exec1 (u : list Z) (up : bool) (t : option cop) (ch : psgchan) : psgchan * list event :=
  match t with Some k => cexec pal envs u up k ch | None => (ch, []) end.

(** [s'] and [o] agree with [t] on every channel. *)
Definition agrees (t : Z -> option cop) (s s' : psg) (o : list event) : Prop :=
  ps_user s' = ps_user s /\ ps_userp s' = ps_userp s /\ length (ps_chans s') = length (ps_chans s) /\
  forall c ch, zget (ps_chans s) c = Some ch ->
    zget (ps_chans s') c = Some (fst (exec1 (ps_user s) (ps_userp s) (t c) ch)) /\
    proj c o = snd (exec1 (ps_user s) (ps_userp s) (t c) ch).

Lemma agrees_none s : agrees (fun _ => None) s s [].
Proof. split; [reflexivity|split; [reflexivity|split; [reflexivity|]]]. intros c ch H. split; [exact H|reflexivity]. Qed.

Lemma agrees_ext t t' s s' o : (forall c, is_psg c -> t c = t' c) -> length (ps_chans s) = 4%nat -> agrees t s s' o -> agrees t' s s' o.
Proof.
  intros H L (H1 & H2 & H3 & H4). split; [exact H1|split; [exact H2|split; [exact H3|]]].
  intros c ch Hc. rewrite <- H; [apply H4; exact Hc|]. apply zget_Some in Hc. unfold is_psg. rewrite L in Hc. lia.
Qed.

Lemma agrees_inv ue t s s' o : psg_inv ue s -> agrees t s s' o ->
  (forall c k, is_psg c -> t c = Some k -> cop_ok k) -> psg_inv ue s'.
Proof.
  intros [[HL HU] Hi] (H1 & H2 & H3 & H4) Hk. split.
  - split; [congruence|]. rewrite H1, H2. exact HU.
  - intros c ch' Hc'.
    destruct (zget_in_range (ps_chans s) c) as [ch Hc]; [rewrite <- H3; eapply zget_Some; exact Hc'|].
    destruct (H4 c ch Hc) as [E _]. rewrite E in Hc'. injection Hc' as <-.
    destruct (Hi c ch Hc) as [Hn Hok]. assert (Hr := zget_Some _ _ _ Hc). rewrite HL in Hr.
    unfold exec1. destruct (t c) as [k|] eqn:Et; [|split; assumption].
    assert (Hck : cop_ok k) by (eapply Hk; [|exact Et]; unfold is_psg; lia).
    split; [|apply cexec_ok; assumption].
    assert (R := cexec_rel pal envs (ps_user s) (ps_userp s) k ch). destruct R as [R _]. congruence.
Qed.

Lemma on_chan_exec ue s c (k : cop) (m : list Z -> bool -> M psgchan unit) : psg_inv ue s -> is_psg c -> cop_ok k ->
  (forall u up, m u up = cfun pal envs u up k) ->
  exists s' o, on_chan c m s = Done tt s' o /\ agrees (fun d => if d =? c then Some k else None) s s' o.
Proof.
  intros [[HL HU] Hi] Hc Hk Hm. unfold is_psg in Hc.
  destruct (zget_in_range (ps_chans s) c) as [ch Hch]; [rewrite HL; lia|].
  destruct (Hi c ch Hch) as [Hn Hok]. unfold on_chan. rewrite Hch, Hm.
  rewrite (cexec_eq pal envs Henvs (ps_user s) (ps_userp s) ue HU k ch Hk Hok).
  eexists; eexists; split; [reflexivity|].
  split; [reflexivity|split; [reflexivity|split; [cbn; apply zset_length|]]].
  cbn [ps_chans]. intros d dh Hd.
  assert (R := cexec_rel pal envs (ps_user s) (ps_userp s) k ch).
  destruct (Z.eqb_spec d c) as [->|Hne].
  - rewrite Hch in Hd. injection Hd as <-. cbn [exec1]. split.
    + apply zget_zset_same. rewrite HL; lia.
    + rewrite <- Hn at 1. eapply crel_proj_same; exact R.
  - split; [cbn; rewrite zget_zset_other by congruence; exact Hd|]. cbn [exec1 snd].
    eapply crel_proj_other; [exact R|congruence].
Qed.

Lemma tick_exec ue l : NoDup l -> (forall c, In c l -> is_psg c) -> forall s, psg_inv ue s ->
  exists s' o, forM l (fun c => on_chan c (fun u _ => chan_tick pal envs u)) s = Done tt s' o /\
    agrees (fun d => if existsb (Z.eqb d) l then Some CTick else None) s s' o.
Proof.
  induction l as [|c t IH]; intros Hnd Hl s Hs.
  - exists s, []. split; [reflexivity|apply agrees_none].
  - inversion Hnd as [|? ? Hnin Hnd']; subst.
    destruct (on_chan_exec ue s c CTick (fun u _ => chan_tick pal envs u) Hs (Hl c (or_introl eq_refl)) I) as (s1 & o1 & E1 & A1);
      [reflexivity|].
    assert (Hs1 : psg_inv ue s1).
    { eapply agrees_inv; [exact Hs|exact A1|]. intros d k _ H. cbv beta in H. destruct (d =? c); [injection H as <-; exact I|discriminate]. }
    destruct (IH Hnd' (fun d Hd => Hl d (or_intror Hd)) s1 Hs1) as (s2 & o2 & E2 & A2).
    exists s2, (o1 ++ o2). split; [cbn [forM]; unfold bind; rewrite E1, E2; reflexivity|].
    destruct A1 as (U1 & P1 & L1 & C1). destruct A2 as (U2 & P2 & L2 & C2).
    split; [congruence|split; [congruence|split; [congruence|]]].
    intros d dh Hd. destruct (C1 d dh Hd) as [G1 Q1]. destruct (C2 d _ G1) as [G2 Q2].
    rewrite proj_app, Q1, Q2, G2, U1, P1. cbn [existsb].
    destruct (Z.eqb_spec d c) as [->|Hne]; cbn [orb exec1 fst snd].
    + replace (existsb (Z.eqb c) t) with false; [cbn; rewrite app_nil_r; split; reflexivity|].
      symmetry. apply not_true_is_false. intros H. apply existsb_exists in H. destruct H as (x & Hx & Ex).
      apply Z.eqb_eq in Ex. subst. contradiction.
    + split; reflexivity.
Qed.

(** ** Loading an envelope *)
Lemma load_loop_spec n : forall eef i user, nth_error eef n = Some 255 -> (forall m, (m < n)%nat -> nth_error eef m <> Some 255) ->
  0 <= i -> i + Z.of_nat n < 256 -> length user = 256%nat ->
  exists user', load_loop eef i user = Some user' /\ length user' = 256%nat /\
    zget user' (i + Z.of_nat n) = Some 255 /\
    (forall j, j < i \/ i + Z.of_nat n < j -> zget user' j = zget user j) /\
    (forall m, (m <= n)%nat -> zget user' (i + Z.of_nat m) = nth_error eef m).
Proof.
  induction n as [|n IH]; intros eef i user Hn Hf Hi Hr HL.
  - destruct eef as [|b t]; [discriminate|]. cbn in Hn. injection Hn as ->.
    cbn [load_loop]. destruct (zget_in_range user i) as [x Hx]; [rewrite HL; lia|]. rewrite Hx. cbn.
    exists (zset user i 255). split; [reflexivity|]. split; [rewrite zset_length; exact HL|].
    rewrite Z.add_0_r. split; [apply zget_zset_same; rewrite HL; lia|]. split.
    + intros j Hj. apply zget_zset_other. lia.
    + intros m Hm. replace m with 0%nat by lia. cbn. rewrite Z.add_0_r. apply zget_zset_same. rewrite HL; lia.
  - destruct eef as [|b t]; [discriminate|]. cbn in Hn. cbn [load_loop].
    destruct (zget_in_range user i) as [x Hx]; [rewrite HL; lia|]. rewrite Hx.
    assert (Hb : b <> 255). { intros ->. apply (Hf 0%nat); [lia|reflexivity]. }
    unfold EEF_END. destruct (Z.eqb_spec b 255); [contradiction|].
    replace (u16 (i + 1)) with (i + 1) by (unfold u16; rewrite Z.mod_small; lia).
    destruct (IH t (i + 1) (zset user i b)) as (user' & E & L & G & F & Cc); auto; try lia.
    + intros m Hm. apply (Hf (S m)). lia.
    + rewrite zset_length; exact HL.
    + exists user'. split; [exact E|split; [exact L|]].
      replace (i + Z.of_nat (S n)) with (i + 1 + Z.of_nat n) by lia. split; [exact G|]. split.
      * intros j Hj. rewrite F by lia. apply zget_zset_other. lia.
      * intros [|m] Hm.
        -- cbn. rewrite Z.add_0_r. rewrite F by lia. apply zget_zset_same. rewrite HL; lia.
        -- replace (i + Z.of_nat (S m)) with (i + 1 + Z.of_nat m) by lia. apply Cc. lia.
Qed.

Lemma first_nat (e : list Z) n : nth_error e n = Some 255 ->
  exists m, (m <= n)%nat /\ nth_error e m = Some 255 /\ forall j, (j < m)%nat -> nth_error e j <> Some 255.
Proof.
  revert n; induction e as [|x t IH]; intros [|n] H; try discriminate.
  - exists 0%nat. split; [lia|split; [exact H|lia]].
  - destruct (Z.eq_dec x 255) as [->|Hne].
    + exists 0%nat. split; [lia|split; [reflexivity|lia]].
    + destruct (IH n H) as (m & Hm & E & F). exists (S m). split; [lia|split; [exact E|]].
      intros [|j] Hj; [cbn; congruence|]. apply F. lia.
Qed.

Lemma load_exec ue s e : psg_inv ue s -> loadable e ->
  exists ue' u', ue <= ue' /\ psg_step pal envs (PLoad e) s = Done tt (mkPsgSt (ps_chans s) u' true) [] /\
    psg_inv ue' (mkPsgSt (ps_chans s) u' true).
Proof.
  intros [[HL (HU1 & HU2 & HU3)] Hi] [_ (n & Hn & Hne)].
  destruct (first_nat e n Hne) as (m & Hm & Em & Fm).
  destruct (load_loop_spec m e 0 (ps_user s) Em Fm) as (u' & E & L & G & F & _); try lia; auto.
  exists (Z.max ue (Z.of_nat m)), u'. split; [lia|]. cbn [psg_step]. unfold midi_psg_load_envelope, bind, get. rewrite E.
  split; [reflexivity|]. split.
  - split; [exact HL|]. cbn. split; [exact L|split].
    + right. destruct (Z.le_gt_cases ue (Z.of_nat m)).
      * rewrite Z.max_r by lia. split; [lia|]. exact G.
      * rewrite Z.max_l by lia. destruct HU2 as [->|[Hr HU2]]; [lia|]. split; [exact Hr|].
        rewrite F by lia. exact HU2.
    + intros _. lia.
  - intros c ch Hc. destruct (Hi c ch Hc) as [N K]. split; [exact N|].
    assert (Mono : forall p, pok envs ue p -> pok envs (Z.max ue (Z.of_nat m)) p).
    { intros [|i|k i]; cbn; auto. lia. }
    destruct K as (K1 & K2 & K3 & K4 & K5). repeat (match goal with |- chok _ _ _ => unfold chok end).
    split; [exact K1|split; [exact K2|split; [apply Mono; exact K3|split; [intros; apply Mono; auto|exact K5]]]].
Qed.

(** ** Reset *)
Definition reset_chan (c : Z) : psgchan := mkPsg c 0 0 15 0 false 127 127 0 (ERom 0 0) ENull false.
Definition reset_state (s : psg) : psg := mkPsgSt (map reset_chan [0;1;2;3]) (ps_user s) false.

Lemma env0 : exists e, zget envs 0 = Some e.
Proof. apply zget_in_range. destruct Henvs as [-> _]. lia. Qed.

Lemma reset_exec s : length (ps_chans s) = 4%nat -> midi_psg_reset envs s = Done tt (reset_state s) [].
Proof.
  intros H. destruct s as [cs u up]. cbn in H.
  destruct cs as [|c0 [|c1 [|c2 [|c3 [|]]]]]; try discriminate.
  unfold midi_psg_reset, bind at 1, modify. cbn [ps_chans ps_user].
  assert (R : forall c ch, chan_reset envs false c ch = Done tt (reset_chan c) []).
  { intros c ch. unfold chan_reset, init_envelope, bind, modify, get, rd. cbn. destruct env0 as [e ->]. reflexivity. }
  cbn [forM]. unfold bind, on_chan. cbn [ps_chans ps_user ps_userp zget zset].
  change (zget [c0; c1; c2; c3] 0) with (Some c0). cbv beta iota. rewrite R. cbn [ps_chans ps_user ps_userp].
  change (zset [c0; c1; c2; c3] 0 (reset_chan 0)) with [reset_chan 0; c1; c2; c3].
  change (zget [reset_chan 0; c1; c2; c3] 1) with (Some c1). cbv beta iota. rewrite R. cbn [ps_chans ps_user ps_userp].
  change (zset [reset_chan 0; c1; c2; c3] 1 (reset_chan 1)) with [reset_chan 0; reset_chan 1; c2; c3].
  change (zget [reset_chan 0; reset_chan 1; c2; c3] 2) with (Some c2). cbv beta iota. rewrite R. cbn [ps_chans ps_user ps_userp].
  change (zset [reset_chan 0; reset_chan 1; c2; c3] 2 (reset_chan 2)) with [reset_chan 0; reset_chan 1; reset_chan 2; c3].
  change (zget [reset_chan 0; reset_chan 1; reset_chan 2; c3] 3) with (Some c3). cbv beta iota. rewrite R. reflexivity.
Qed.

Lemma reset_inv ue s : psg_base ue s -> psg_inv ue (reset_state s).
Proof.
  intros [HL (H1 & H2 & H3)]. split.
  - split; [reflexivity|]. cbn. split; [exact H1|split; [exact H2|discriminate]].
  - assert (P0 := pok_rom envs Henvs ue 0 ltac:(unfold seven; lia)).
    assert (K : forall c, chok envs ue (reset_chan c)).
    { intros c. unfold chok, reset_chan, vv_ok, seven; cbn.
      split; [lia|split; [lia|split; [exact P0|split; [discriminate|split; [lia|split; [lia|split; [lia|split; [lia|auto]]]]]]]]. }
    intros c ch Hc. cbn [reset_state ps_chans map] in Hc. assert (R := zget_Some _ _ _ Hc). cbn in R.
    assert (Cs : c = 0 \/ c = 1 \/ c = 2 \/ c = 3) by lia.
    destruct Cs as [-> | [-> | [-> | ->]]]; injection Hc as <-; split; try reflexivity; apply K.
Qed.

(** ** One operation *)
Definition plain (op : pop) : Prop := op <> PReset /\ ~ is_load op.

Lemma target_ok c op k : pop_ok op -> target c op = Some k -> cop_ok k.
Proof.
  destruct op; cbn; intros H E; try discriminate;
  try (destruct (_ =? _); [|discriminate]); try (destruct (negb _); [|discriminate]); injection E as <-; cbn; tauto.
Qed.

Lemma plain_exec ue op s : psg_inv ue s -> pop_ok op -> plain op ->
  exists s' o, psg_step pal envs op s = Done tt s' o /\ agrees (fun c => target c op) s s' o.
Proof.
  intros Hs Hop [Hr Hl]. assert (HL : length (ps_chans s) = 4%nat) by apply Hs.
  assert (G : forall c k (m : list Z -> bool -> M psgchan unit), is_psg c -> cop_ok k -> (forall u up, m u up = cfun pal envs u up k) ->
    (forall d, is_psg d -> (if d =? c then Some k else None) = target d op) -> psg_step pal envs op s = on_chan c m s ->
    exists s' o, psg_step pal envs op s = Done tt s' o /\ agrees (fun c => target c op) s s' o).
  { intros c k m Hc Hk Hm Ht E. destruct (on_chan_exec ue s c k m Hs Hc Hk Hm) as (s' & o & E' & A).
    exists s', o. split; [congruence|]. eapply agrees_ext; [exact Ht|exact HL|exact A]. }
  destruct op; cbn [pop_ok] in Hop; try contradiction; try (destruct Hr; reflexivity); try (destruct Hl; exact I).
  - (* note on *)
    destruct (pitch <? 45) eqn:Ep.
    + exists s, []. split; [cbn; unfold midi_psg_note_on, MIN_MIDI_KEY; rewrite Ep; reflexivity|].
      eapply agrees_ext; [|exact HL|apply agrees_none]. intros d _. cbn. rewrite Ep, andb_false_r. reflexivity.
    + eapply (G c (CNoteOn pitch cents vel)); [tauto|cbn; tauto|reflexivity| |].
      * intros d _. cbn. rewrite Ep, andb_true_r, Z.eqb_sym. reflexivity.
      * cbn. unfold midi_psg_note_on, MIN_MIDI_KEY. rewrite Ep. reflexivity.
  - eapply (G c COff); [exact Hop|exact I|reflexivity| |reflexivity]. intros d _. cbn. rewrite Z.eqb_sym. reflexivity.
  - eapply (G c COff); [exact Hop|exact I|reflexivity| |].
    + intros d _. cbn. rewrite Z.eqb_sym. reflexivity.
    + cbn. unfold midi_psg_all_notes_off, bind, get, rd. destruct (zget_in_range (ps_chans s) c) as [ch ->]; [rewrite HL; unfold is_psg in Hop; lia|].
      cbn. unfold midi_psg_note_off. destruct (on_chan c _ s); reflexivity.
  - eapply (G c (CVol v)); [tauto|cbn; tauto|reflexivity| |reflexivity]. intros d _. cbn. rewrite Z.eqb_sym. reflexivity.
  - eapply (G c (CProg p)); [tauto|cbn; tauto|reflexivity| |reflexivity]. intros d _. cbn. rewrite Z.eqb_sym. reflexivity.
  - exists s, []. split; [reflexivity|]. eapply agrees_ext; [|exact HL|apply agrees_none]. reflexivity.
  - destruct (tick_exec ue [0;1;2;3]) with (s := s) as (s' & o & E & A).
    + repeat constructor; cbn; intuition lia.
    + intros c Hc. cbn in Hc. unfold is_psg. intuition lia.
    + exact Hs.
    + exists s', o. split; [exact E|]. eapply agrees_ext; [|exact HL|exact A].
      intros c Hc. unfold is_psg in Hc. assert (Cs : c = 0 \/ c = 1 \/ c = 2 \/ c = 3) by lia.
      destruct Cs as [-> | [-> | [-> | ->]]]; reflexivity.
  - eapply (G c (CPitch pitch cents)); [tauto|cbn; tauto|reflexivity| |reflexivity]. intros d _. cbn. rewrite Z.eqb_sym. reflexivity.
Qed.

Lemma plain_dec op : plain op \/ op = PReset \/ is_load op.
Proof. unfold plain. destruct op; cbn; try (left; split; [discriminate|tauto]); auto. Qed.

Lemma step_inv ue op s : psg_inv ue s -> pop_ok op ->
  exists ue' s' o, ue <= ue' /\ psg_step pal envs op s = Done tt s' o /\ psg_inv ue' s'.
Proof.
  intros Hs Hop. destruct (plain_dec op) as [Hp|[->|Hl]].
  - destruct (plain_exec ue op s Hs Hop Hp) as (s' & o & E & A). exists ue, s', o.
    split; [lia|split; [exact E|]]. eapply agrees_inv; [exact Hs|exact A|]. intros c k _ Ht. exact (target_ok c op k Hop Ht).
  - exists ue, (reset_state s), []. split; [lia|split; [apply reset_exec, Hs|apply reset_inv, Hs]].
  - destruct op; cbn in Hl; try contradiction. destruct (load_exec ue s eef Hs Hop) as (ue' & u' & Hle & E & Hi).
    exists ue', (mkPsgSt (ps_chans s) u' true), []. auto.
Qed.

Lemma run_inv ops : Forall pop_ok ops -> forall ue s, psg_inv ue s ->
  exists ue' s' o, ue <= ue' /\ psg_run pal envs ops s = Done tt s' o /\ psg_inv ue' s'.
Proof.
  induction 1 as [|op t Hop Ht IH]; intros ue s Hs.
  - exists ue, s, []. split; [lia|split; [reflexivity|exact Hs]].
  - destruct (step_inv ue op s Hs Hop) as (ue1 & s1 & o1 & Hle1 & E1 & Hs1).
    destruct (IH ue1 s1 Hs1) as (ue2 & s2 & o2 & Hle2 & E2 & Hs2).
    exists ue2, s2, (o1 ++ o2). split; [lia|split; [|exact Hs2]].
    unfold psg_run in *. cbn [runM]. unfold bind. rewrite E1, E2. reflexivity.
Qed.

Lemma psg0_base : psg_base (-1) psg0.
Proof. split; [reflexivity|]. split; [reflexivity|]. split; [left; reflexivity|discriminate]. Qed.

Definition boot_state : psg := reset_state psg0.
Lemma boot_run ops : psg_run pal envs (PReset :: ops) psg0 = psg_run pal envs ops boot_state.
Proof.
  unfold psg_run. cbn [runM]. unfold bind. change (psg_step pal envs PReset psg0) with (midi_psg_reset envs psg0).
  rewrite reset_exec by reflexivity. fold boot_state. destruct (runM _ ops boot_state); reflexivity.
Qed.
Lemma boot_inv : psg_inv (-1) boot_state.
Proof. apply reset_inv, psg0_base. Qed.

(** Reachable states satisfy the invariant. *)
Lemma reach_inv ops s tr : Forall pop_ok ops -> psg_run pal envs (PReset :: ops) psg0 = Done tt s tr ->
  exists ue, psg_inv ue s.
Proof.
  intros Hops E. rewrite boot_run in E. destruct (run_inv ops Hops _ _ boot_inv) as (ue & s' & o & _ & E' & Hi).
  rewrite E in E'. injection E' as <- <-. eauto.
Qed.
End Run.
