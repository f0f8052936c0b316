(** Notes: release, stealing, percussion, held keys. *)
From Verif Require Import Base BaseLemmas PitchModel PitchProofs NotePriorityModel NotePriorityProofs SynthModel.
From Verif Require Import MidiModel MidiSpec MidiProofs MidiOkProofs MidiEqProofs.

(** ** Velocity 0 *)
Lemma step_no_zero op s : midi_step (no_zero_velocity op) s = midi_step op s.
Proof.
  destruct op; try reflexivity. cbn. destruct (Z.eqb_spec v 0) as [->|Hv]; [reflexivity|].
  cbn. unfold midi_note_on. reflexivity.
Qed.
Lemma run_no_zero ops : forall s, midi_run (map no_zero_velocity ops) s = midi_run ops s.
Proof.
  induction ops as [|op t IH]; intros s; cbn [map midi_run]; [reflexivity|].
  rewrite step_no_zero. unfold wbind. destruct (midi_step op s) as [s' o|f]; [|reflexivity]. rewrite IH. reflexivity.
Qed.

(** ** Map access *)
Lemma zget_map {A B} (f : A -> B) (l : list A) (i : Z) :
  zget (map f l) i = option_map f (zget l i).
Proof.
  unfold zget. destruct (i <? 0); [reflexivity|]. apply nth_error_map.
Qed.
Lemma dev_map (f : dev -> dev) s i (d' : dev) : zget (map f (md_dev s)) i = Some d' -> exists d, dev_at s i d /\ d' = f d.
Proof.
  rewrite zget_map. unfold dev_at. destruct (zget (md_dev s) i) as [d|]; [|discriminate].
  intros [= <-]. eauto.
Qed.

(** ** Note off *)
Lemma playing_note d p : 0 <= d_glide d < 256 -> isChannelPlayingNote d p = d_on d && (note_of d =? p).
Proof.
  intros H. unfold isChannelPlayingNote, note_of, u8.
  destruct (Z.eqb_spec (d_glide d) 0); cbn [negb]; [reflexivity|]. rewrite Z.mod_small by lia. reflexivity.
Qed.
Lemma off_next_not m p : off_next m p <> 0 -> off_next m p <> p.
Proof.
  unfold off_next, off_stack. intros H E.
  destruct (filter (fun x => negb (x =? p)) (keys (m_np m))) as [|a l] eqn:F; [cbn in H; congruence|].
  assert (Hin : In (last (a :: l) 0) (filter (fun x => negb (x =? p)) (keys (m_np m)))).
  { rewrite F. apply last_In. discriminate. }
  apply filter_In in Hin as [_ Hin]. rewrite E in Hin. lia.
Qed.
Lemma off_next_key m p : off_next m p <> 0 -> In (off_next m p) (off_stack m p).
Proof.
  unfold off_next. intros H. apply last_In. intros E. rewrite E in H. cbn in H. congruence.
Qed.

Lemma note_off_effect c p s s' o m :
  midi_ok s -> is_chan c -> ch_at s c m -> midi_note_off c p s = WDone s' o ->
  md_dev s' = map (note_off_dev s m c p) (md_dev s) /\
  o = flat_map (note_off_calls s m c p) (md_dev s) /\
  exists st, stack_ok st /\ keys st = note_off_keys s m c p /\
  s' = md_set_dev (md_set_ch s (zset (md_ch s) c (m_set_np m st))) (map (note_off_dev s m c p) (md_dev s)).
Proof.
  intros Hs Hc Hm E. destruct (midi_note_off_eq c p s m Hs Hc Hm) as (st & K1 & K2 & E').
  rewrite E' in E. injection E as <- <-. split; [reflexivity|]. split; [reflexivity|]. exists st. auto.
Qed.

Lemma note_off_silences c p s s' o :
  midi_ok s -> is_chan c -> midi_note_off c p s = WDone s' o ->
  (forall m, ch_at s c m -> m_porta m = false -> forall i d, serves s c i d -> d_on d = true -> d_glide d = 0) ->
  ~ sounds s' c p.
Proof.
  intros Hs Hc E Hg. destruct (ok_ch_get _ _ Hs Hc) as (m & Hm & Hmok).
  destruct (note_off_effect _ _ _ _ _ m Hs Hc Hm E) as (Ed & _).
  intros (i & d' & [Hd' Hmid] & Hon & Hnote). unfold dev_at in Hd'. rewrite Ed in Hd'.
  apply dev_map in Hd' as (d & Hd & ->).
  assert (Hgl : 0 <= d_glide d < 256) by (destruct (ok_dev _ _ _ Hs Hd) as [Hdk _]; unfold dev_ok, seven in Hdk; lia).
  unfold note_off_dev in *. destruct (serves_note c p d) eqn:Es.
  - destruct (falls_back s m c p) eqn:Ef; [|discriminate].
    unfold serves_note in Es. apply andb_prop in Es as [E1 E2]. apply Z.eqb_eq in E1.
    rewrite playing_note in E2 by exact Hgl. apply andb_prop in E2 as [E2 E3]. apply Z.eqb_eq in E3.
    unfold falls_back in Ef. apply andb_prop in Ef as [_ Ef].
    assert (Hn0 : off_next m p <> 0) by lia. assert (Hnp := off_next_not _ _ Hn0).
    unfold retrig_dev, note_of in Hnote. destruct (m_porta m) eqn:Ep; cbn in Hnote.
    + destruct (Z.eqb_spec (off_next m p) 0); congruence.
    + rewrite (Hg m Hm Ep i d) in Hnote; [|split; assumption|assumption]. rewrite Z.eqb_refl in Hnote. congruence.
  - unfold serves_note in Es. rewrite playing_note in Es by exact Hgl. rewrite Hmid, Hon, Hnote, !Z.eqb_refl in Es. discriminate.
Qed.

(** Every device channel that sounded the note is told to stop, or moves on to
    a key the channel still remembers. *)
Lemma in_flat_map_dev {B} (h : dev -> list B) s i d x : dev_at s i d -> In x (h d) -> In x (flat_map h (md_dev s)).
Proof.
  intros Hd Hx. apply in_flat_map. exists d. split; [|exact Hx]. unfold dev_at, zget in Hd.
  destruct (i <? 0); [discriminate|]. eapply nth_error_In; exact Hd.
Qed.
Lemma note_off_stops c p s s' o m :
  midi_ok s -> is_chan c -> ch_at s c m -> midi_note_off c p s = WDone s' o ->
  forall i d, serves s c i d -> d_on d = true -> note_of d = p ->
  (In (DNoteOff (d_ops d) (d_num d) p) o /\ exists d', dev_at s' i d' /\ d_on d' = false) \/
  (exists k d', In k (keys (m_np m)) /\ k <> p /\ dev_at s' i d' /\
     (d_glide d' = k \/ d_pitch d' = k /\ exists pp cc, In (DNoteOn (d_ops d) (d_num d) pp cc (m_vel m)) o)).
Proof.
  intros Hs Hc Hm E i d [Hd Hmid] Hon Hnote.
  destruct (note_off_effect _ _ _ _ _ m Hs Hc Hm E) as (Ed & Eo & _).
  assert (Hgl : 0 <= d_glide d < 256) by (destruct (ok_dev _ _ _ Hs Hd) as [Hdk _]; unfold dev_ok, seven in Hdk; lia).
  assert (Es : serves_note c p d = true).
  { unfold serves_note. rewrite playing_note by exact Hgl. rewrite Hmid, Hon, Hnote, !Z.eqb_refl. reflexivity. }
  assert (Hd' : dev_at s' i (note_off_dev s m c p d)).
  { unfold dev_at. rewrite Ed, zget_map. rewrite Hd. reflexivity. }
  unfold note_off_dev in Hd'. rewrite Es in Hd'.
  destruct (falls_back s m c p) eqn:Ef.
  - right. assert (Hn0 : off_next m p <> 0) by (unfold falls_back in Ef; lia).
    exists (off_next m p). eexists. split; [|split; [exact (off_next_not _ _ Hn0)|split; [exact Hd'|]]].
    + apply off_next_key in Hn0. unfold off_stack in Hn0. apply filter_In in Hn0. apply Hn0.
    + unfold retrig_dev. destruct (m_porta m) eqn:Ep; [left; reflexivity|right; split; [reflexivity|]].
      do 2 eexists. rewrite Eo. eapply in_flat_map_dev; [exact Hd|].
      unfold note_off_calls. rewrite Ef. unfold retrig_calls. rewrite Es, Ep. left. reflexivity.
  - left. split; [|exists (off_dev d); split; [exact Hd'|reflexivity]].
    rewrite Eo. eapply in_flat_map_dev; [exact Hd|]. unfold note_off_calls. rewrite Ef.
    unfold off_calls. rewrite Es. left. reflexivity.
Qed.

(** ** All notes off *)
Lemma all_notes_off_silences c s s' o :
  all_notes_off c s = WDone s' o ->
  forall i d, serves s c i d ->
  In (DAllOff (d_ops d) (d_num d)) o /\ exists d', serves s' c i d' /\ d_on d' = false.
Proof.
  rewrite all_notes_off_eq. intros [= <- <-] i d [Hd Hm]. split.
  - eapply in_flat_map_dev; [exact Hd|]. unfold calls_at. rewrite Hm, Z.eqb_refl. left. reflexivity.
  - exists (at_chan c (fun d => d_set_pitch (d_set_on d false) 0) d). unfold serves, dev_at; cbn.
    rewrite zget_map, Hd. cbn [option_map]. unfold at_chan. rewrite Hm, Z.eqb_refl. split; [split; [reflexivity|exact Hm]|reflexivity].
Qed.
Lemma all_notes_off_others c s s' o :
  all_notes_off c s = WDone s' o ->
  md_ch s' = md_ch s /\ (forall i d, dev_at s i d -> d_midi d <> c -> dev_at s' i d) /\
  (forall x, In x o -> exists i d, serves s c i d /\ x = DAllOff (d_ops d) (d_num d)).
Proof.
  rewrite all_notes_off_eq. intros [= <- <-]. split; [reflexivity|]. split.
  - intros i d Hd Hm. unfold dev_at in *; cbn. rewrite zget_map, Hd. cbn [option_map]. unfold at_chan.
    destruct (Z.eqb_spec (d_midi d) c); [contradiction|reflexivity].
  - intros x Hx. apply in_flat_map in Hx as (d & Hd & Hx). unfold calls_at in Hx.
    destruct (Z.eqb_spec (d_midi d) c); [|destruct Hx]. destruct Hx as [<-|[]].
    destruct (In_zget _ _ Hd) as [i Hi]. exists i, d. unfold serves, dev_at. auto.
Qed.

(** ** Choosing a device channel *)
Lemma orelse_some {A} (a b : option A) x : orelse a b = Some x -> a = Some x \/ b = Some x.
Proof. destruct a; cbn; auto. Qed.
Lemma search_some devs c a b i :
  search_dev devs c a b = Some i ->
  exists d, zget devs i = Some d /\ ((d_on d = false \/ d_midi d = c) /\ isPsgAndIncomingChanIsPercussive d c = false) /\
            a <= i <= b.
Proof.
  unfold search_dev. intros H. apply orelse_some in H as [H|H]; apply first_dev_some in H as (Hi & d & Hd & Hp);
    exists d; (split; [exact Hd|]); (split; [|exact Hi]).
  - unfold suitable, isChannelSuitable in Hp. destruct (d_on d); [discriminate|].
    destruct (isPsgAndIncomingChanIsPercussive d c); [discriminate|]. auto.
  - apply andb_prop in Hp as [P1 P2]. apply Z.eqb_eq in P1.
    destruct (isPsgAndIncomingChanIsPercussive d c); [discriminate|]. auto.
Qed.
Lemma suitable_off c d : suitable c d = true -> d_on d = false /\ isPsgAndIncomingChanIsPercussive d c = false.
Proof. unfold suitable, isChannelSuitable. destruct (d_on d), (isPsgAndIncomingChanIsPercussive d c); cbn; auto; discriminate. Qed.
(** In static mode the only candidates serve the channel. *)
Lemma chosen_cases s m c i d :
  chosen s m c = Some i -> dev_at s i d ->
  (d_midi d = c \/ d_on d = false) /\
  (md_dyn s = false -> d_midi d = c) /\
  (md_dyn s = true -> isPsgAndIncomingChanIsPercussive d c = false).
Proof.
  unfold chosen, dev_at. destruct (device_min_max (m_sel m)) as [lo hi]. intros H Hd.
  apply orelse_some in H as [H|H].
  { apply first_dev_some in H as (_ & e & He & Hp). rewrite Hd in He. injection He as <-.
    apply andb_prop in Hp as [P1 P2]. apply Z.eqb_eq in P1. apply suitable_off in P2. tauto. }
  destruct (md_dyn s).
  - cut ((d_midi d = c \/ d_on d = false) /\ isPsgAndIncomingChanIsPercussive d c = false); [intuition congruence|].
    assert (HS : forall a b, search_dev (md_dev s) c a b = Some i ->
      (d_midi d = c \/ d_on d = false) /\ isPsgAndIncomingChanIsPercussive d c = false).
    { intros a b Hx. apply search_some in Hx as (e & He & (P1 & P2) & _). rewrite Hd in He. injection He as <-. tauto. }
    assert (HF : forall a b, first_dev (md_dev s) (suitable c) (upto a b) = Some i ->
      (d_midi d = c \/ d_on d = false) /\ isPsgAndIncomingChanIsPercussive d c = false).
    { intros a b Hx. apply first_dev_some in Hx as (_ & e & He & Hp). rewrite Hd in He. injection He as <-.
      apply suitable_off in Hp. tauto. }
    apply orelse_some in H as [H|H].
    { unfold square_dev in H. destruct (_ || _); [eapply HF; exact H|discriminate]. }
    apply orelse_some in H as [H|H]; [|eapply HF; exact H].
    unfold specific_dev in H. destruct (md_stick s); [|eapply HS; exact H].
    destruct (by_midi _ _) as [x|]; [|discriminate]. destruct (zget _ x); [|discriminate].
    destruct (vt_eqb _ _); eapply HS; exact H.
  - unfold by_midi in H. apply first_dev_some in H as (_ & e & He & Hp). rewrite Hd in He. injection He as <-.
    apply Z.eqb_eq in Hp. intuition congruence.
Qed.

(** A note on touches one device channel: [i], which serves the channel or is free. *)
Lemma sync_calls_voice m d x v : In x (sync_calls m d) -> call_voice x = Some v -> v = (d_ops d, d_num d).
Proof.
  unfold sync_calls. intros H Hv. repeat rewrite in_app_iff in H.
  destruct H as [[<-|[]]|[H|[H|[H|H]]]]; [discriminate|..]; destruct (_ =? _) in H; try contradiction;
    destruct H as [<-|[]]; cbn in Hv; congruence.
Qed.
Lemma start_calls_voice m c p v d x w : In x (start_calls m c p v d) -> call_voice x = Some w -> w = (d_ops d, d_num d).
Proof.
  unfold start_calls. intros H Hv. repeat rewrite in_app_iff in H. destruct H as [H|[H|[<-|[]]]].
  - destruct (_ && _); [|destruct H]. destruct H as [<-|[]]. cbn in Hv. congruence.
  - apply (sync_calls_voice _ _ _ _ H) in Hv. exact Hv.
  - cbn in Hv. congruence.
Qed.
Lemma note_on_touches c p v s s' o :
  midi_ok s -> is_chan c -> seven p -> v <> 0 -> midi_note_on c p v s = WDone s' o ->
  (s' = s /\ o = []) \/
  exists i d d', dev_at s i d /\ (d_midi d = c \/ d_on d = false) /\ (md_dyn s = false -> d_midi d = c) /\
    (md_dyn s = true -> c = 9 -> d_ops d <> VPsg) /\
    md_dev s' = zset (md_dev s) i d' /\ d_ops d' = d_ops d /\ d_num d' = d_num d /\
    (forall x w, In x o -> call_voice x = Some w -> w = (d_ops d, d_num d)).
Proof.
  intros Hs Hc Hp Hv E. destruct (ok_ch_get _ _ Hs Hc) as (m & Hm & _).
  destruct (midi_note_on_eq c p v s m Hs Hc Hp Hv Hm) as (s1 & o1 & E1 & R). rewrite E in E1. injection E1 as <- <-.
  assert (HC : forall i d, chosen s m c = Some i -> zget (md_dev s) i = Some d ->
     (d_midi d = c \/ d_on d = false) /\ (md_dyn s = false -> d_midi d = c) /\ (md_dyn s = true -> c = 9 -> d_ops d <> VPsg)).
  { intros i d Ci Hd. destruct (chosen_cases _ _ _ _ _ Ci Hd) as (A1 & A2 & A3). split; [exact A1|]. split; [exact A2|].
    intros Hdyn -> Hops. apply A3 in Hdyn. unfold isPsgAndIncomingChanIsPercussive in Hdyn. rewrite Hops in Hdyn. discriminate. }
  destruct R as [|i d st _ Ci Hd _ _ _ _ _|i d st _ Ci Hd _ _ _ _|i d _ Ci Hd _].
  - left; auto.
  - right. destruct (HC _ _ Ci Hd) as (A1 & A2 & A3). exists i, d, (d_set_glide d p).
    repeat (split; [first [assumption|reflexivity]|]). intros x w [].
  - right. destruct (HC _ _ Ci Hd) as (A1 & A2 & A3).
    exists i, d. eexists. repeat (split; [first [assumption|reflexivity]|]).
    intros x w Hx Hw. apply (start_calls_voice _ _ _ _ _ _ _ Hx Hw).
  - right. destruct (HC _ _ Ci Hd) as (A1 & A2 & A3).
    exists i, d. eexists. repeat (split; [first [assumption|reflexivity]|]).
    intros x w Hx Hw. apply (start_calls_voice _ _ _ _ _ _ _ Hx Hw).
Qed.
Lemma shape_inj i j d e : 0 <= i < 13 -> 0 <= j < 13 -> shape_ok i d -> shape_ok j e ->
  d_ops d = d_ops e -> d_num d = d_num e -> i = j.
Proof.
  intros Hi Hj (A1 & A2 & A3) (B1 & B2 & B3) Eo En.
  destruct (Z_lt_le_dec i 6); [|destruct (Z_lt_le_dec i 10)];
  (destruct (Z_lt_le_dec j 6); [|destruct (Z_lt_le_dec j 10)]);
  repeat match goal with
  | H : ?a < ?b -> _, H' : ?a < ?b |- _ => specialize (H H')
  | H : 6 <= ?a < 10 -> _ |- _ => specialize (H ltac:(lia)) || clear H
  | H : 10 <= ?a -> _ |- _ => specialize (H ltac:(lia)) || clear H
  end; intuition congruence || lia.
Qed.
Lemma note_on_never_steals c p v s s' o :
  midi_ok s -> is_chan c -> seven p -> v <> 0 -> midi_note_on c p v s = WDone s' o ->
  forall i d, dev_at s i d -> d_on d = true -> d_midi d <> c ->
  dev_at s' i d /\ ~ (exists x, In x o /\ call_voice x = Some (d_ops d, d_num d)).
Proof.
  intros Hs Hc Hp Hv E i d Hd Hon Hm.
  destruct (note_on_touches _ _ _ _ _ _ Hs Hc Hp Hv E) as [[-> ->]|(j & e & e' & He & A & _ & _ & Ed & Eo & En & V)].
  { split; [exact Hd|]. intros (x & [] & _). }
  assert (Hne : j <> i).
  { intros ->. unfold dev_at in *. rewrite Hd in He. injection He as <-. destruct A; congruence. }
  split; [unfold dev_at; rewrite Ed, zget_zset_other; assumption|].
  intros (x & Hx & Hw). specialize (V _ _ Hx Hw). injection V as V1 V2.
  destruct (ok_dev _ _ _ Hs Hd) as [Dk Di]. destruct (ok_dev _ _ _ Hs He) as [Ek Ej].
  apply Hne. symmetry. eapply shape_inj; [exact Di|exact Ej|apply Dk|apply Ek|assumption|assumption].
Qed.

Lemma candidate_suitable s m c i d : candidate s m c i d -> suitable c d = true.
Proof.
  intros (_ & _ & Hoff & Hp). unfold suitable, isChannelSuitable. rewrite Hoff. cbn.
  unfold isPsgAndIncomingChanIsPercussive, PERCUSSION. destruct (d_ops d); cbn; try reflexivity.
  destruct (Z.eqb_spec c 9); [|reflexivity]. exfalso. apply Hp. auto.
Qed.
Lemma chosen_free s m c i0 d0 :
  md_dyn s = true -> md_stick s = false -> candidate s m c i0 d0 ->
  exists i d, chosen s m c = Some i /\ dev_at s i d /\ d_on d = false.
Proof.
  intros Hdyn Hst Hc. assert (Hsu := candidate_suitable _ _ _ _ _ Hc). destruct Hc as (Hr & Hd0 & _).
  change (group_of (m_sel m)) with (device_min_max (m_sel m)) in Hr. unfold chosen. destruct (device_min_max (m_sel m)) as [lo hi]. cbn [fst snd] in Hr.
  assert (HF : forall p a b i, (forall d, p d = true -> suitable c d = true) ->
    first_dev (md_dev s) p (upto a b) = Some i -> exists d, dev_at s i d /\ d_on d = false).
  { intros p a b i Himp H. apply first_dev_some in H as (_ & d & Hd & Hp). exists d. split; [exact Hd|].
    apply Himp, suitable_off in Hp. apply Hp. }
  destruct (first_dev (md_dev s) (fun d => (d_midi d =? c) && suitable c d) (upto lo hi)) as [i|] eqn:E1.
  { destruct (HF _ _ _ _ ltac:(intros d H; apply andb_prop in H; apply H) E1) as (d & D1 & D2). exists i, d. auto. }
  cbn [orelse]. rewrite Hdyn. destruct (square_dev (md_dev s) m c) as [i|] eqn:E2.
  { unfold square_dev in E2. destruct (_ || _); [|discriminate].
    destruct (HF _ _ _ _ (fun _ X => X) E2) as (d & D1 & D2). exists i, d. auto. }
  cbn [orelse]. unfold specific_dev. rewrite Hst. unfold search_dev.
  destruct (first_dev (md_dev s) (suitable c) (upto lo hi)) as [i|] eqn:E3.
  { destruct (HF _ _ _ _ (fun _ X => X) E3) as (d & D1 & D2). exists i, d. auto. }
  exfalso. rewrite (first_dev_none _ _ _ _ i0 d0 E3 Hr Hd0) in Hsu. discriminate.
Qed.
Lemma note_on_placed c p v s s' o m i0 d0 :
  midi_ok s -> is_chan c -> seven p -> v <> 0 -> ch_at s c m -> midi_note_on c p v s = WDone s' o ->
  md_dyn s = true -> md_stick s = false -> m_porta m = false ->
  (length (keys (m_np m)) < 10)%nat -> tooManyPercussiveNotes s c = false ->
  candidate s m c i0 d0 ->
  exists i d d' pp cc, dev_at s i d /\ d_on d = false /\ dev_at s' i d' /\
    d_on d' = true /\ d_midi d' = c /\ d_pitch d' = p /\
    last o (DChange 0 0 0 0) = DNoteOn (d_ops d) (d_num d) pp cc v.
Proof.
  intros Hs Hc Hp Hv Hm E Hdyn Hst Hpo Hlen Hperc Hcand.
  destruct (midi_note_on_eq c p v s m Hs Hc Hp Hv Hm) as (s1 & o1 & E1 & R). rewrite E in E1. injection E1 as <- <-.
  destruct (chosen_free _ _ _ _ _ Hdyn Hst Hcand) as (i & d & Ci & Hd & Hoff).
  assert (Hset : forall x, zget (zset (md_dev s) i x) i = Some x).
  { intros x. apply zget_zset_same. eapply zget_Some; exact Hd. }
  assert (Hlast : forall mm dd, last (start_calls mm c p v dd) (DChange 0 0 0 0)
    = DNoteOn (d_ops dd) (d_num dd) (pc_pitch (eff mm (started mm c p dd))) (pc_cents (eff mm (started mm c p dd))) v).
  { intros mm dd. unfold start_calls. rewrite app_assoc. apply last_last. }
  destruct R as [[H|[H|[_ H]]]|j e st _ Cj He _ _ _ H _|j e st _ Cj He _ _ _ _|j e _ Cj He _].
  - congruence.
  - congruence.
  - lia.
  - congruence.
  - rewrite Ci in Cj. injection Cj as <-. unfold dev_at in Hd. rewrite Hd in He. injection He as <-.
    rewrite Hlast. exists i, d. do 3 eexists. unfold dev_at; cbn [md_dev md_set_dev md_set_ch]. rewrite Hset.
    repeat (split; [first [assumption|reflexivity]|]). reflexivity.
  - rewrite Ci in Cj. injection Cj as <-. unfold dev_at in Hd. rewrite Hd in He. injection He as <-.
    rewrite Hlast. exists i, d. do 3 eexists. unfold dev_at; cbn [md_dev md_set_dev md_set_ch]. rewrite Hset.
    repeat (split; [first [assumption|reflexivity]|]). reflexivity.
Qed.
(** Conversely a dropped note leaves everything as it was. *)
