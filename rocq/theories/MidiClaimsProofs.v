(** The claims about the MIDI layer, in the form [MidiProperties] states them. *)
From Verif Require Import Base BaseLemmas SynthModel PitchModel.
From Verif Require Import MidiModel MidiSpec MidiProofs MidiOkProofs MidiEqProofs MidiEffectProofs MidiNoteProofs MidiHistProofs MidiMapProofs MidiStaticProofs MidiChanProofs MidiCarryProofs MidiTableProofs MidiSysexProofs MidiGlideProofs MidiMonoProofs.

(** A decision procedure for "sounds", to refute by computation. *)
Definition soundsb (s : midi) (c p : Z) : bool :=
  existsb (fun d => (d_midi d =? c) && d_on d && (note_of d =? p)) (md_dev s).
Lemma sounds_iff s c p : sounds s c p <-> soundsb s c p = true.
Proof.
  unfold sounds, soundsb, serves, dev_at. rewrite existsb_exists. split.
  - intros (i & d & [Hd Hc] & Ho & Hn). exists d. split; [eapply zget_In; exact Hd|]. rewrite Hc, Ho, Hn, !Z.eqb_refl. reflexivity.
  - intros (d & Hd & H). apply andb_prop in H as [H H3]. apply andb_prop in H as [H1 H2].
    destruct (In_zget _ _ Hd) as [i Hi]. exists i, d. repeat split; [exact Hi|lia|exact H2|lia].
Qed.

Lemma c30_stops c p s s' o m i d :
  midi_ok s -> is_chan c -> ch_at s c m -> steps s (MNoteOff c p) s' o -> serves s c i d -> d_on d = true -> note_of d = p ->
  (In (DNoteOff (d_ops d) (d_num d) p) o /\ exists d', dev_at s' i d' /\ d_on d' = false) \/
  (exists k d', In k (keys (m_np m)) /\ k <> p /\ dev_at s' i d' /\
     (d_glide d' = k \/ d_pitch d' = k /\ exists pp cc, In (DNoteOn (d_ops d) (d_num d) pp cc (m_vel m)) o)).
Proof. intros Hs Hc Hm E. apply (note_off_stops c p s s' o m Hs Hc Hm E). Qed.

Lemma c32_step s c p : midi_step (MNoteOn c p 0) s = midi_step (MNoteOff c p) s.
Proof. symmetry. apply (step_no_zero (MNoteOn c p 0)). Qed.

Lemma cc_off s s' o c k v : k = 123 \/ k = 120 -> steps s (MCc c k v) s' o ->
  exists o1 o2, all_notes_off c s = WDone s' o1 /\ o = o1 ++ o2 /\ (o2 = [] \/ o2 = [DChange 2 c k v]).
Proof.
  intros Hk E. unfold steps in E. cbn [midi_step] in E. unfold midi_cc in E.
  apply wbind_inv in E as (s1 & o1 & o2 & E1 & E2 & ->).
  assert (K : all_notes_off c s = WDone s1 o1).
  { unfold cc_action in E1. apply wbind_inv in E1 as (m & oa & ob & Ea & Eb & ->).
    unfold wget in Ea. destruct (zget (md_ch s) c); [|discriminate]. injection Ea as _ <-. destruct Hk as [-> | ->]; exact Eb. }
  unfold notify_change in E2. destruct (md_cb s1).
  - apply emit_inv in E2 as (o3 & E2 & ->). injection E2 as <- <-. eauto 8.
  - injection E2 as <- <-. eauto 8.
Qed.
Lemma c33 s s' o c k v : k = 123 \/ k = 120 -> steps s (MCc c k v) s' o ->
  (forall p, ~ sounds s' c p) /\
  (forall i d, serves s c i d -> In (DAllOff (d_ops d) (d_num d)) o) /\
  (forall i d, dev_at s i d -> d_midi d <> c -> dev_at s' i d) /\
  (forall x w, In x o -> call_voice x = Some w -> exists i d, serves s c i d /\ w = (d_ops d, d_num d)).
Proof.
  intros Hk E. destruct (cc_off s s' o c k v Hk E) as (o1 & o2 & E1 & -> & Ho2).
  assert (A := all_notes_off_silences c s s' o1 E1). destruct (all_notes_off_others c s s' o1 E1) as (_ & B & C).
  split; [|split; [|split; [exact B|]]].
  - intros p (i & d' & [Hd Hc] & Hon & _).
    destruct (zget (md_dev s) i) as [d|] eqn:Ed.
    + destruct (Z.eq_dec (d_midi d) c) as [Hm|Hm].
      * destruct (A i d (conj Ed Hm)) as (_ & x & [Hx _] & Hoff). unfold dev_at in *. congruence.
      * assert (X := B i d Ed Hm). unfold dev_at in *. congruence.
    + assert (L : length (md_dev s') = length (md_dev s)).
      { revert E1. rewrite all_notes_off_eq. intros [= <- _]. cbn [md_dev md_set_dev]. apply map_length. }
      apply zget_None in Ed. apply zget_Some in Hd. lia.
  - intros i d Hd. apply in_or_app. left. apply (A i d Hd).
  - intros x w Hx Hw. apply in_app_or in Hx as [Hx|Hx].
    + destruct (C x Hx) as (i & d & Hd & ->). cbn in Hw. injection Hw as <-. eauto.
    + destruct Ho2 as [-> | ->]; [destruct Hx|]. destruct Hx as [<-|[]]. discriminate.
Qed.

(** Dynamic mode. *)
Lemma percussion_room s c : (c = 9 -> (percussion_notes s < 2)%nat) -> tooManyPercussiveNotes s c = false.
Proof.
  intros H. destruct (Z.eq_dec c 9) as [->|Hc].
  - rewrite too_many_count. apply Nat.leb_gt. auto.
  - unfold tooManyPercussiveNotes, PERCUSSION. destruct (Z.eqb_spec c 9); [contradiction|]. reflexivity.
Qed.
Lemma c34_placed c p v s s' o m i0 d0 :
  midi_ok s -> is_chan c -> seven p -> 1 <= v <= 127 -> ch_at s c m -> steps s (MNoteOn c p v) s' o ->
  md_dyn s = true -> md_stick s = false -> m_porta m = false -> (length (keys (m_np m)) < 10)%nat ->
  (c = 9 -> (percussion_notes s < 2)%nat) -> candidate s m c i0 d0 ->
  exists i d d' pp cc, dev_at s i d /\ d_on d = false /\ serves s' c i d' /\ d_on d' = true /\ d_pitch d' = p /\
    last o (DChange 0 0 0 0) = DNoteOn (d_ops d) (d_num d) pp cc v.
Proof.
  intros Hs Hc Hp Hv Hm E Hdy Hst Hpo Hk Hpc Hcand.
  destruct (note_on_placed c p v s s' o m i0 d0 Hs Hc Hp ltac:(lia) Hm E Hdy Hst Hpo Hk (percussion_room _ _ Hpc) Hcand)
    as (i & d & d' & pp & cc & H1 & H2 & H3 & H4 & H5 & H6 & H7).
  exists i, d, d', pp, cc. repeat split; assumption.
Qed.
Lemma c34_steals c p v s s' o i d :
  midi_ok s -> is_chan c -> seven p -> 1 <= v <= 127 -> steps s (MNoteOn c p v) s' o ->
  dev_at s i d -> d_on d = true -> d_midi d <> c ->
  dev_at s' i d /\ forall x, In x o -> call_voice x <> Some (d_ops d, d_num d).
Proof.
  intros Hs Hc Hp Hv E Hd Ho Hm.
  destruct (note_on_never_steals c p v s s' o Hs Hc Hp ltac:(lia) E i d Hd Ho Hm) as [H1 H2].
  split; [exact H1|]. intros x Hx Hw. apply H2. eauto.
Qed.
Lemma c35_not_psg p v s s' o n pp cc ve :
  midi_ok s -> seven p -> 1 <= v <= 127 -> md_dyn s = true -> steps s (MNoteOn 9 p v) s' o ->
  ~ In (DNoteOn VPsg n pp cc ve) o /\
  (forall i d d', dev_at s i d -> dev_at s' i d' -> d_on d = false -> d_on d' = true -> d_ops d' <> VPsg).
Proof.
  intros Hs Hp Hv Hdy E. destruct (note_on_touches 9 p v s s' o Hs ltac:(unfold is_chan; lia) Hp ltac:(lia) E)
    as [[-> ->]|(i & d & d' & Hd & _ & _ & Hp9 & Hdev & Hops & Hnum & Hcalls)].
  - split; [intros []|]. intros i d d' H1 H2 H3 H4. unfold dev_at in *. congruence.
  - specialize (Hp9 Hdy eq_refl). split.
    + intros Hin. specialize (Hcalls _ _ Hin eq_refl). congruence.
    + intros j e e' He He' Ho Ho'. unfold dev_at in *. rewrite Hdev in He'. destruct (Z.eq_dec j i) as [->|Hj].
      * rewrite zget_zset_same in He' by (eapply zget_Some; exact Hd). injection He' as <-. congruence.
      * rewrite zget_zset_other in He' by congruence. congruence.
Qed.

(** Static mode. *)
Lemma c36 ops s o op s' o' c :
  Forall (fun op => ~ remaps op) ops -> boots_to ops s o -> mop_ok op -> note_or_setting c op -> steps s op s' o' ->
  (forall x w, In x o' -> call_voice x = Some w -> static_voice c w) /\
  (forall x, In x o' -> call_voice x = None -> (exists n, x = DPerc n (c =? 9) /\ exists w, static_voice c w /\ n = snd w) \/ exists t a b, x = DChange t c a b) /\
  (forall i d, dev_at s i d -> i <> c -> dev_at s' i d) /\
  (forall b m, ch_at s b m -> b <> c -> ch_at s' b m).
Proof.
  intros Hr Hb Hop Hn E. destruct (static_boot ops s o Hr Hb) as [Hs Hst].
  destruct (setting_routed op s s' o' c Hs Hop Hst Hn E) as (H1 & H2 & H3). rewrite Forall_forall in H1.
  split; [|split; [|split; assumption]].
  - intros x w Hx Hw. specialize (H1 x Hx). unfold routed in H1. rewrite Hw in H1. destruct H1 as (i & d & Hd & ->).
    apply (static_voice_of s c i d Hs Hst Hd).
  - intros x Hx Hw. specialize (H1 x Hx). unfold routed in H1. rewrite Hw in H1.
    destruct x; try contradiction.
    + destruct H1 as [-> (i & d & Hd & ->)]. left. eexists. split; [reflexivity|].
      eexists. split; [apply (static_voice_of s c i d Hs Hst Hd)|reflexivity].
    + subst. right. eauto.
Qed.

(** The FM parameter controllers. *)
Lemma c47 k : is_fm_controller k -> ~ 16 <= k < 20 -> ~ 51 <= k < 55 ->
  exists f : Z -> Z,
    (forall v, seven v -> 0 <= f v <= field_max k) /\ f 0 = 0 /\ f 127 = field_max k /\
    (forall v w, seven v -> seven w -> v <= w -> f v <= f w) /\
    forall s s' o c v, midi_ok s -> is_chan c -> seven v -> md_nogm s = false -> steps s (MCc c k v) s' o ->
      s' = s /\
      (forall i d, serves s c i d -> exists op, fm_controls k (d_num d) (f v) = Some op /\ In (DSynth op) o) /\
      (forall op, In (DSynth op) o -> exists i d, serves s c i d /\ fm_controls k (d_num d) (f v) = Some op).
Proof.
  intros Hk H1 H2. exists (scaled k). destruct (scaled_spec k) as (A & B & C & D).
  split; [exact A|]. split; [exact B|]. split; [exact C|]. split; [exact D|].
  intros s s' o c v Hs Hc Hv Hg E. assert (X := fm_controller_sets s s' o c k v Hs Hc Hv Hk Hg E).
  assert (L : level_of s k v = scaled k v).
  { unfold level_of. destruct (Z.leb_spec 16 k), (Z.ltb_spec k 20); cbn [andb]; try lia;
      destruct (Z.leb_spec 51 k), (Z.ltb_spec k 55); cbn [andb]; try lia; reflexivity. }
  rewrite L in X. exact X.
Qed.
Lemma tl_controller k : 16 <= k < 20 -> is_fm_controller k.
Proof. intros H. assert (C : k = 16 \/ k = 17 \/ k = 18 \/ k = 19) by lia. destruct C as [-> | [-> | [-> | ->]]]; discriminate. Qed.
Lemma c47_level k : 16 <= k < 20 ->
    forall s s' o c v, midi_ok s -> is_chan c -> seven v -> md_nogm s = false -> steps s (MCc c k v) s' o ->
      let x := if md_inv s then 127 - v else v in
      s' = s /\
      (forall i d, serves s c i d -> In (DSynth (STotalLevel (d_num d) (k - 16) x)) o) /\
      (forall op, In (DSynth op) o -> exists i d, serves s c i d /\ op = STotalLevel (d_num d) (k - 16) x).
Proof.
  intros Hk s s' o c v Hs Hc Hv Hg E x. destruct (fm_controller_sets s s' o c k v Hs Hc Hv (tl_controller k Hk) Hg E) as (X & Y & Z0).
  assert (L : level_of s k v = x).
  { unfold level_of. destruct (Z.leb_spec 16 k), (Z.ltb_spec k 20); try lia. reflexivity. }
  rewrite L in *.
  assert (F : forall n, fm_controls k n x = Some (STotalLevel n (k - 16) x)).
  { intros n. assert (C : k = 16 \/ k = 17 \/ k = 18 \/ k = 19) by lia. destruct C as [-> | [-> | [-> | ->]]]; reflexivity. }
  split; [exact X|]. split.
  - intros i d Hd. destruct (Y i d Hd) as (op & H1 & H2). rewrite F in H1. injection H1 as <-. exact H2.
  - intros op Ho. destruct (Z0 op Ho) as (i & d & Hd & H1). rewrite F in H1. injection H1 as <-. eauto.
Qed.

(** Ping. *)
Lemma c44 s payload : Forall seven payload ->
  exists reply, steps s (own_sysex 1 payload) s [DTx (own_header ++ 2 :: reply)] /\ Forall seven reply /\
    ((length payload <= 1)%nat -> reply = payload) /\
    (payload <> [] -> hd_error reply = hd_error payload).
Proof.
  intros H. exists (pong payload). split; [apply ping_reply|]. split; [apply pong_seven, H|]. split.
  - destruct payload as [|a [|b t]]; cbn; intros; [reflexivity|reflexivity|lia].
  - destruct payload as [|a [|b t]]; intros Hn; [contradiction|reflexivity|].
    cbn [pong hd_error]. destruct b as [|[]|], t; reflexivity.
Qed.

(** The whole layer. *)
Lemma wpw_done {A} E C (Q : A -> Prop) (r : wres A) : wpw E C r Q -> (forall f, ~ E f) -> exists a o, r = WDone a o /\ Q a /\ Forall C o.
Proof. unfold wpw. destruct r as [a o|f]; intros H Hn; [exists a, o; destruct H; auto|destruct (Hn f H)]. Qed.
Lemma wpw_fault {A} E C (Q : A -> Prop) (r : wres A) f : wpw E C r Q -> r = WFault f -> E f.
Proof. unfold wpw. intros H ->. exact H. Qed.
Lemma c48_midi ops : Forall mop_ok ops -> ~ Exists odd_envelope ops ->
  exists s o, midi_boot ops = WDone s o /\ midi_ok s /\ Forall dcall_ok o.
Proof. intros Ho Hn. apply (wpw_done _ _ _ _ (midi_boot_ok ops Ho)). intros f [_ H]. exact (Hn H). Qed.
Lemma c48_fault ops f : Forall mop_ok ops -> midi_boot ops = WFault f -> f = F_uninit /\ Exists odd_envelope ops.
Proof. intros Ho E. exact (wpw_fault _ _ _ _ f (midi_boot_ok ops Ho) E). Qed.
Lemma c42_released ops s o : Forall plain_op ops -> boots_to ops s o -> held ops = [] ->
  forall i d, dev_at s i d -> d_on d = false.
Proof.
  intros Hp Hb Hh i d Hd. destruct (d_on d) eqn:Eo; [|reflexivity].
  exfalso. assert (X := no_hung_notes ops s o Hp Hb i d Hd Eo). rewrite Hh in X. exact X.
Qed.
Lemma c40 ops s o c m : boots_to ops s o -> ch_at s c m ->
  pc_pitch (m_range m) = st_semis (settings ops c) /\ pc_cents (m_range m) = st_cents (settings ops c).
Proof. intros Hb Hm. destruct (settings_boot ops s o Hb) as [_ H]. destruct (H c m Hm) as (_ & _ & _ & _ & A & B & _). auto. Qed.
Lemma c39_stored ops s o c m : boots_to ops s o -> ch_at s c m ->
  m_vol m = st_vol (settings ops c) /\ m_pan m = st_pan (settings ops c) /\ m_prog m = st_prog (settings ops c) /\
  m_bend m = st_bend (settings ops c).
Proof. intros Hb Hm. destruct (settings_boot ops s o Hb) as [_ H]. destruct (H c m Hm) as (A & B & C & D & _). auto. Qed.

(** ** Witnesses by computation *)
Definition sevenb (x : Z) : bool := (0 <=? x) && (x <? 128).
Definition mop_okb (op : mop) : bool :=
  let chan c := (0 <=? c) && (c <? 16) in
  match op with
  | MNoteOn c p v | MCc c p v => chan c && sevenb p && sevenb v
  | MNoteOff c p | MProgram c p => chan c && sevenb p
  | MBend c b => chan c && ((0 <=? b) && (b <? 16384))
  | MSysex data => forallb sevenb data && Nat.leb (length data) 256
  | MReset | MTick | MCallback _ => true
  end.
Lemma mop_okb_ok op : mop_okb op = true -> mop_ok op.
Proof.
  unfold mop_okb, mop_ok, is_chan, seven, sevenb. destruct op; try solve [auto]; intros H.
  1-5: repeat match goal with H : _ && _ = true |- _ => apply andb_prop in H as [? ?] end;
       repeat match goal with H : (_ <=? _) = true |- _ => apply Z.leb_le in H | H : (_ <? _) = true |- _ => apply Z.ltb_lt in H end; lia.
  apply andb_prop in H as [H1 H2]. split; [|apply Nat.leb_le, H2]. rewrite forallb_forall in H1. apply Forall_forall.
  intros x Hx. specialize (H1 x Hx). apply andb_prop in H1. lia.
Qed.
Definition ranb (ops : list mop) (check : midi -> list dcall -> bool) : bool :=
  forallb mop_okb ops && match midi_boot ops with WDone s o => check s o | WFault _ => false end.
Lemma wdone_check {A} (r : wres A) (check : A -> list dcall -> bool) :
  match r with WDone s o => check s o | WFault _ => false end = true -> exists s o, r = WDone s o /\ check s o = true.
Proof. destruct r; [eauto|discriminate]. Qed.
Lemma ran ops check : ranb ops check = true -> exists s o, boots_to ops s o /\ check s o = true.
Proof.
  unfold ranb. intros H. apply andb_prop in H as [H1 H2]. apply wdone_check in H2 as (s & o & E & H2).
  exists s, o. split; [|exact H2]. split; [|exact E]. apply Forall_forall. intros op Hop. apply mop_okb_ok.
  rewrite forallb_forall in H1. auto.
Qed.
(** One more message. *)
Definition thenb (op : mop) (check : midi -> list dcall -> bool) (s : midi) : bool :=
  match midi_step op s with WDone s o => check s o | WFault _ => false end.
Lemma then_done op check s : thenb op check s = true -> exists s' o, steps s op s' o /\ check s' o = true.
Proof. unfold thenb, steps. apply wdone_check. Qed.
Definition runb (ops : list mop) (check : midi -> list dcall -> bool) (s : midi) : bool :=
  match midi_run ops s with WDone s o => check s o | WFault _ => false end.
Lemma run_done ops check s : runb ops check s = true -> exists s' o, midi_run ops s = WDone s' o /\ check s' o = true.
Proof. unfold runb. apply wdone_check. Qed.
Definition devb (s : midi) (i : Z) (f : dev -> bool) : bool := match zget (md_dev s) i with Some d => f d | None => false end.
Lemma dev_done s i f : devb s i f = true -> exists d, dev_at s i d /\ f d = true.
Proof. unfold devb, dev_at. destruct (zget (md_dev s) i); [eauto|discriminate]. Qed.
Definition chb (s : midi) (i : Z) (f : mchan -> bool) : bool := match zget (md_ch s) i with Some d => f d | None => false end.
Lemma ch_done s i f : chb s i f = true -> exists m, ch_at s i m /\ f m = true.
Proof. unfold chb, ch_at. destruct (zget (md_ch s) i); [eauto|discriminate]. Qed.
Definition dcall_dec (x y : dcall) : {x = y} + {x <> y}.
Proof. repeat decide equality. Defined.
Definition callb (x : dcall) (o : list dcall) : bool := if in_dec dcall_dec x o then true else false.
Lemma call_done x o : callb x o = true -> In x o.
Proof. unfold callb. destruct (in_dec dcall_dec x o); [auto|discriminate]. Qed.

Ltac both H := apply andb_prop in H; let H2 := fresh H in destruct H as [H H2].

(** Hold 60; play 64 twice. *)
Definition twice : list mop := [MNoteOn 0 60 100; MNoteOn 0 64 100; MNoteOff 0 64; MNoteOn 0 64 100; MNoteOff 0 64].
Lemma c29_refuted : ~ (forall ops c s o, 0 <= c < 13 -> Forall (key_message c) ops -> boots_to ops s o ->
  (length (held ops) <= 10)%nat -> sounds_only s c (expected_key c ops)).
Proof.
  intros H.
  destruct (ran twice
                (fun s _ => negb (soundsb s 0 60)) ltac:(vm_compute; reflexivity)) as (s & o & Hb & Hc).
  specialize (H twice 0 s o ltac:(lia)). apply negb_true_iff in Hc.
  assert (X : soundsb s 0 60 = true); [|congruence]. apply sounds_iff. apply H; [|exact Hb|vm_compute; lia|reflexivity].
  repeat (apply Forall_cons; [unfold key_message, playable; cbn; first [left; do 2 eexists; split; [reflexivity|cbn; lia] | right; eexists; split; [reflexivity|lia]]|]).
  apply Forall_nil.
Qed.
(** Release out of order: of four keys, the first two are let go, then the sounding one. *)
Definition mixed : list mop :=
  [MNoteOn 0 60 100; MNoteOn 0 62 100; MNoteOn 0 64 100; MNoteOn 0 65 100; MNoteOff 0 60; MNoteOff 0 62; MNoteOff 0 65].
Lemma c29_refuted_order : ~ (forall ops c s o, 0 <= c < 13 -> Forall (key_message c) ops -> boots_to ops s o ->
  NoDup (flat_map (fun op => match op with MNoteOn _ p _ => [p] | _ => [] end) ops) -> sounds_only s c (expected_key c ops)).
Proof.
  intros H.
  destruct (ran mixed
                (fun s _ => negb (soundsb s 0 64)) ltac:(vm_compute; reflexivity)) as (s & o & Hb & Hc).
  specialize (H mixed 0 s o ltac:(lia)). apply negb_true_iff in Hc.
  assert (X : soundsb s 0 64 = true); [|congruence]. apply sounds_iff. apply H; [|exact Hb| |reflexivity].
  - repeat (apply Forall_cons; [unfold key_message, playable; cbn; first [left; do 2 eexists; split; [reflexivity|cbn; lia] | right; eexists; split; [reflexivity|lia]]|]).
    apply Forall_nil.
  - cbn. repeat constructor; cbn; lia.
Qed.
Definition porta_toggle : list mop :=
  [MCc 0 65 127; MNoteOn 0 60 100; MNoteOn 0 64 100; MCc 0 65 0; MNoteOff 0 64].
Lemma c30_refuted : ~ (forall ops s o c p s' o', boots_to ops s o -> is_chan c -> seven p ->
  steps s (MNoteOff c p) s' o' -> ~ sounds s' c p).
Proof.
  intros H.
  destruct (ran (firstn 4 porta_toggle) (fun s _ => thenb (MNoteOff 0 64) (fun s _ => soundsb s 0 64) s) ltac:(vm_compute; reflexivity)) as (s & o & Hb & Hc).
  apply then_done in Hc as (s' & o' & E & Hc).
  apply (H _ s o 0 64 s' o' Hb ltac:(unfold is_chan; lia) ltac:(unfold seven; lia) E), sounds_iff, Hc.
Qed.
Lemma c42_refuted : ~ (forall ops s o i d, Forall (fun op => ~ remapping op) ops -> boots_to ops s o -> held ops = [] ->
  dev_at s i d -> d_on d = false).
Proof.
  intros H.
  destruct (ran (porta_toggle ++ [MNoteOff 0 60]) (fun s _ => devb s 0 d_on) ltac:(vm_compute; reflexivity)) as (s & o & Hb & Hc).
  apply dev_done in Hc as (d & Hd & Hc). rewrite (H (porta_toggle ++ [MNoteOff 0 60]) s o 0 d) in Hc; [discriminate| |exact Hb|reflexivity|exact Hd].
  repeat (apply Forall_cons; [intros [(? & ? & X)|[(? & ? & X)|[(? & X)|(? & X)]]]; discriminate X|]). apply Forall_nil.
Qed.
Definition mode_change : list mop := [MNoteOn 1 60 100; MCc 0 84 127; MNoteOff 1 60].
Lemma c42_refuted_mode : ~ (forall ops s o i d, Forall (fun op => ~ is_cc 65 op) ops -> boots_to ops s o -> held ops = [] ->
  dev_at s i d -> d_on d = false).
Proof.
  intros H.
  destruct (ran mode_change (fun s _ => devb s 1 d_on) ltac:(vm_compute; reflexivity)) as (s & o & Hb & Hc).
  apply dev_done in Hc as (d & Hd & Hc). rewrite (H mode_change s o 1 d) in Hc; [discriminate| |exact Hb|reflexivity|exact Hd].
  repeat (apply Forall_cons; [intros (? & ? & X); discriminate X|]). apply Forall_nil.
Qed.
Lemma c33_refuted : ~ (forall ops s o c v s1 o1 p w s2 o2, boots_to ops s o -> is_chan c -> seven p -> 1 <= w <= 127 ->
  steps s (MCc c 123 v) s1 o1 -> midi_run [MNoteOn c p w; MNoteOff c p] s1 = WDone s2 o2 -> forall q, ~ sounds s2 c q).
Proof.
  intros H.
  destruct (ran [MNoteOn 0 60 100] (fun s _ => thenb (MCc 0 123 0) (fun s1 _ => runb [MNoteOn 0 64 100; MNoteOff 0 64] (fun s2 _ => soundsb s2 0 60) s1) s)
    ltac:(vm_compute; reflexivity)) as (s & o & Hb & Hc).
  apply then_done in Hc as (s1 & o1 & E1 & Hc). apply run_done in Hc as (s2 & o2 & E2 & Hc).
  apply (H _ s o 0 0 s1 o1 64 100 s2 o2 Hb ltac:(unfold is_chan; lia) ltac:(unfold seven; lia) ltac:(lia) E1 E2 60), sounds_iff, Hc.
Qed.

Ltac small := unfold is_chan, seven; lia.
(** Dynamic mode with "stick to device type": eight channels sound, FM and two tones; the ninth
    note finds no voice although tone 3 is free. *)
Definition stick_full : list mop :=
  own_sysex 3 [1] :: own_sysex 5 [1] :: map (fun c => MNoteOn c 60 100) [0; 1; 2; 3; 4; 5; 6; 7].
Lemma c34_refuted : ~ (forall ops s o c p v m i d s' o',
  boots_to ops s o -> md_dyn s = true -> is_chan c -> seven p -> 1 <= v <= 127 -> ch_at s c m -> m_porta m = false ->
  keys (m_np m) = [] -> (c = 9 -> (percussion_notes s < 2)%nat) -> candidate s m c i d -> steps s (MNoteOn c p v) s' o' ->
  sounds s' c p).
Proof.
  intros H.
  destruct (ran stick_full (fun s _ => md_dyn s && devb s 8 (fun d => negb (d_on d)) &&
      chb s 8 (fun m => negb (m_porta m) && (m_sel m =? 0) && match keys (m_np m) with [] => true | _ => false end) &&
      thenb (MNoteOn 8 60 100) (fun s _ => negb (soundsb s 8 60)) s) ltac:(vm_compute; reflexivity)) as (s & o & Hb & Hc).
  apply andb_prop in Hc as [Hc H4]. apply andb_prop in Hc as [Hc H3]. apply andb_prop in Hc as [H1 H2].
  apply dev_done in H2 as (d & Hd & H2). apply negb_true_iff in H2. apply ch_done in H3 as (m & Hm & H3).
  apply andb_prop in H3 as [H3 Hk]. apply andb_prop in H3 as [Hp Hsel]. apply negb_true_iff in Hp.
  apply then_done in H4 as (s' & o' & E & H4). apply negb_true_iff in H4.
  assert (X : soundsb s' 8 60 = true); [|congruence]. apply sounds_iff.
  apply (H stick_full s o 8 60 100 m 8 d s' o'); auto; try small.
  - destruct (keys (m_np m)); [reflexivity|discriminate].
  - unfold candidate. apply Z.eqb_eq in Hsel. rewrite Hsel. split; [change (group_of 0) with (0, 8); cbn [fst snd]; lia|]. split; [exact Hd|]. split; [exact H2|]. intros [X _]. discriminate X.
Qed.
Lemma c36_refuted : ~ (forall ops s o op s' o' c n b, Forall (fun op => ~ remaps op) ops -> boots_to ops s o -> mop_ok op ->
  note_or_setting c op -> steps s op s' o' -> In (DPerc n b) o' -> n = c).
Proof.
  intros H.
  destruct (ran [] (fun s _ => thenb (MNoteOn 9 60 100) (fun _ o => callb (DPerc 3 true) o) s) ltac:(vm_compute; reflexivity)) as (s & o & Hb & Hc).
  apply then_done in Hc as (s' & o' & E & Hc). apply call_done in Hc.
  assert (X : 3 = 9); [|discriminate].
  apply (H [] s o (MNoteOn 9 60 100) s' o' 9 3 true); auto; [cbn; unfold is_chan, seven; lia|left; eauto].
Qed.
Lemma c38_refuted : ~ (forall ops s o op s' o' a x n d, boots_to ops s o -> mop_ok op -> on_channel op = Some a ->
  steps s op s' o' -> In (DSynth x) o' -> SynthSpec.sop_chan x = Some n -> dev_at s n d -> d_midi d = a).
Proof.
  intros H.
  destruct (ran [] (fun s _ => devb s 0 (fun d => d_midi d =? 0) && thenb (MCc 6 14 127) (fun _ o => callb (DSynth (SAlgorithm 0 7)) o) s)
    ltac:(vm_compute; reflexivity)) as (s & o & Hb & Hc).
  apply andb_prop in Hc as [Hd Hc]. apply dev_done in Hd as (d & Hd & Hz).
  apply then_done in Hc as (s' & o' & E & Hc). apply call_done in Hc.
  assert (X : d_midi d = 6); [|lia].
  apply (H [] s o (MCc 6 14 127) s' o' 6 (SAlgorithm 0 7) 0 d); auto. cbn; unfold is_chan, seven; lia.
Qed.
Lemma c40_refuted : ~ (forall ops s o c a b v s' o' m m', boots_to ops s o -> is_chan c -> seven a -> seven b -> seven v ->
  midi_run [MCc c 99 a; MCc c 98 b; MCc c 6 v] s = WDone s' o' -> ch_at s c m -> ch_at s' c m' ->
  pc_pitch (m_range m') = pc_pitch (m_range m)).
Proof.
  intros H.
  destruct (ran [MCc 0 101 0; MCc 0 100 0] (fun s _ => chb s 0 (fun m => pc_pitch (m_range m) =? 2) &&
    runb [MCc 0 99 1; MCc 0 98 1; MCc 0 6 12] (fun s _ => chb s 0 (fun m => pc_pitch (m_range m) =? 12)) s)
    ltac:(vm_compute; reflexivity)) as (s & o & Hb & Hc).
  apply andb_prop in Hc as [Hm Hc]. apply ch_done in Hm as (m & Hm & Hz).
  apply run_done in Hc as (s' & o' & E & Hc). apply ch_done in Hc as (m' & Hm' & Hz').
  assert (X : pc_pitch (m_range m') = pc_pitch (m_range m)); [|lia].
  apply (H [MCc 0 101 0; MCc 0 100 0] s o 0 1 1 12 s' o' m m' Hb ltac:(small) ltac:(small) ltac:(small) ltac:(small) E Hm Hm').
Qed.
Lemma c41_refuted : ~ (forall ops s o i d m s' o' d', boots_to ops s o -> gliding s i d m -> steps s MTick s' o' ->
  dev_at s' i d' -> Z.abs (position d' - 100 * d_glide d) <= Z.abs (position d - 100 * d_glide d)).
Proof.
  intros H.
  destruct (ran [MCc 0 65 127; MCc 0 5 0; MNoteOn 0 5 100; MNoteOn 0 1 100] (fun s _ =>
      devb s 0 (fun d => (d_midi d =? 0) && d_on d && (d_glide d =? 1) && (position d =? 500) &&
        thenb MTick (fun s' _ => devb s' 0 (fun d' => 1000 <? position d')) s) && chb s 0 m_porta)
    ltac:(vm_compute; reflexivity)) as (s & o & Hb & Hc).
  apply andb_prop in Hc as [Hc Hm]. apply ch_done in Hm as (m & Hm & Hp). apply dev_done in Hc as (d & Hd & Hc).
  apply andb_prop in Hc as [Hc H5]. apply andb_prop in Hc as [Hc H4]. apply andb_prop in Hc as [Hc H3]. apply andb_prop in Hc as [H1 H2].
  apply then_done in H5 as (s' & o' & E & Hc). apply dev_done in Hc as (d' & Hd' & Hc).
  assert (X := H _ s o 0 d m s' o' d' Hb). apply Z.eqb_eq in H1, H3, H4. apply Z.ltb_lt in Hc.
  assert (G : gliding s 0 d m) by (unfold gliding; rewrite H1; repeat split; auto; lia).
  specialize (X G E Hd'). rewrite H3, H4 in X. lia.
Qed.
Lemma c43_refuted : ~ (forall ops s o data s' o', boots_to ops s o -> Forall seven data ->
  (length data <> 4)%nat -> ~ starts_with own_header data -> steps s (MSysex data) s' o' -> s' = s /\ o' = []).
Proof.
  intros H.
  destruct (ran [] (fun s _ => thenb (MSysex [0x7E; 0x7F; 9; 1; 5]) (fun _ o => match o with [] => false | _ => true end) s)
    ltac:(vm_compute; reflexivity)) as (s & o & Hb & Hc).
  apply then_done in Hc as (s' & o' & E & Hc).
  destruct (H [] s o [0x7E; 0x7F; 9; 1; 5] s' o' Hb) as [_ ->]; [|discriminate| |exact E|discriminate].
  - repeat (apply Forall_cons; [small|]). apply Forall_nil.
  - intros (t & X). discriminate X.
Qed.
Lemma c44_refuted : ~ (forall s payload, Forall seven payload -> steps s (own_sysex 1 payload) s [DTx (own_header ++ 2 :: payload)]).
Proof.
  intros H. assert (X := H midi0 [5; 6] ltac:(repeat (apply Forall_cons; [small|]); apply Forall_nil)).
  assert (Y := ping_reply midi0 [5; 6]). unfold steps in X, Y. rewrite X in Y. apply WDone_inj in Y as [_ Y]. discriminate Y.
Qed.
Lemma c46_refuted k : k = 80 \/ k = 84 \/ k = 87 -> ~ (forall ops s o c v s' o', boots_to ops s o -> md_nogm s = true ->
  is_chan c -> seven v -> steps s (MCc c k v) s' o' -> s' = s /\ o' = []).
Proof.
  intros Hk H.
  assert (K : ranb [own_sysex 4 [0]] (fun s _ => md_nogm s && thenb (MCc 0 k 127) (fun s' o' => match o' with [] => negb (Bool.eqb (md_dyn s') (md_dyn s)) | _ => true end) s) = true).
  { destruct Hk as [-> | [-> | ->]]; vm_compute; reflexivity. }
  apply ran in K as (s & o & Hb & Hc). apply andb_prop in Hc as [Hg Hc].
  apply then_done in Hc as (s' & o' & E & Hc).
  destruct (H [own_sysex 4 [0]] s o 0 127 s' o' Hb Hg ltac:(small) ltac:(small) E) as [-> ->].
  rewrite Bool.eqb_reflx in Hc. discriminate.
Qed.
Lemma c47_refuted : ~ (forall ops s o c k s' o' n q x, 51 <= k < 55 -> boots_to ops s o -> md_nogm s = false -> is_chan c ->
  steps s (MCc c k 127) s' o' -> In (DSynth (SSustainRate n q x)) o' -> x = field_max k).
Proof.
  intros H.
  destruct (ran [] (fun s _ => negb (md_nogm s) && thenb (MCc 0 51 127) (fun _ o => callb (DSynth (SSustainRate 0 0 15)) o) s)
    ltac:(vm_compute; reflexivity)) as (s & o & Hb & Hc).
  apply andb_prop in Hc as [Hg Hc]. apply negb_true_iff in Hg. apply then_done in Hc as (s' & o' & E & Hc). apply call_done in Hc.
  assert (X : 15 = field_max 51) by (apply (H [] s o 0 51 s' o' 0 0 15); auto; [lia|small]). discriminate X.
Qed.
Lemma c63_refuted : ~ (forall ops s o a v s' o' i d, boots_to ops s o -> is_chan a -> seven v ->
  steps s (MCc a 121 v) s' o' -> dev_at s i d -> d_on d = true -> d_midi d <> a -> exists d', dev_at s' i d' /\ d_midi d' = d_midi d).
Proof.
  intros H.
  destruct (ran [own_sysex 3 [1]; MNoteOn 0 60 100] (fun s _ => devb s 0 (fun d => d_on d && (d_midi d =? 0)) &&
     thenb (MCc 1 121 0) (fun s _ => devb s 0 (fun d => d_midi d =? 0x7F)) s) ltac:(vm_compute; reflexivity)) as (s & o & Hb & Hc).
  apply andb_prop in Hc as [Hd Hc]. apply dev_done in Hd as (d & Hd & Hz). apply andb_prop in Hz as [Hon Hz]. apply Z.eqb_eq in Hz.
  apply then_done in Hc as (s' & o' & E & Hc). apply dev_done in Hc as (d1 & Hd1 & Hc). apply Z.eqb_eq in Hc.
  destruct (H _ s o 1 0 s' o' 0 d Hb ltac:(small) ltac:(small) E Hd Hon ltac:(lia)) as (d' & Hd' & X).
  unfold dev_at in *. rewrite Hd1 in Hd'. injection Hd' as <-. lia.
Qed.
Lemma c48_refuted : ~ (forall ops, Forall mop_ok ops -> exists s o, midi_boot ops = WDone s o).
Proof.
  intros H. destruct (H [own_sysex 6 [1]]) as (s & o & E).
  - repeat constructor; try small; cbn; lia.
  - assert (X : match midi_boot [own_sysex 6 [1]] with WDone _ _ => false | WFault _ => true end = true) by (vm_compute; reflexivity).
    rewrite E in X. discriminate X.
Qed.

(** Two-part witnesses for the examples: a history, then a message. *)
Lemma ran_then ops op before after :
  ranb ops (fun s _ => before s && thenb op (fun s' o' => after s' o') s) = true ->
  exists s o s' o', boots_to ops s o /\ before s = true /\ steps s op s' o' /\ after s' o' = true.
Proof.
  intros H. apply ran in H as (s & o & Hb & H). apply andb_prop in H as [H1 H2]. apply then_done in H2 as (s' & o' & E & H2).
  exists s, o, s', o'. auto.
Qed.
