(** Every operation keeps the state well-formed and makes only legal calls. *)
From Verif Require Import Base BaseLemmas PitchModel PitchProofs NotePriorityModel NotePriorityProofs SynthModel.
From Verif Require SynthSpec PsgSpec.
From Verif Require Import MidiModel MidiSpec MidiProofs.

Notation wok := (wpw nofault dcall_ok).

Lemma sync_calls_ok i k m d :
  0 <= i < 13 -> shape_ok i d -> ch_ok k m -> Forall dcall_ok (sync_calls m d).
Proof.
  intros Hi Hs (_ & Hv & Hp & Hn & Hb & _).
  assert (V := shape_voice _ _ Hi Hs). assert (N := shape_num _ _ Hi Hs).
  destruct (eff_range m (synced m d)) as [E1 E2].
  unfold sync_calls.
  do 4 (apply Forall_app; split; [solve [repeat constructor; cbn; lia
    | destruct (_ =? _); repeat constructor; cbn; auto; first [apply Hv|apply Hn|apply Hp]]|]).
  destruct (_ =? _); constructor; [|constructor].
  split; [assumption|]. split; assumption.
Qed.
Lemma synced_ok i k m d :
  dev_ok i d -> ch_ok k m -> dev_ok i (synced m d).
Proof.
  intros (H1 & H2 & H3 & H4 & H5 & H6 & H7 & H8 & H9) (_ & Hv & Hp & Hn & Hb & _).
  unfold dev_ok, synced; cbn. repeat (split; [assumption|]). assumption.
Qed.

Lemma fresh_shape i d : 0 <= i < 13 -> shape_ok i (fresh_dev i d).
Proof.
  intros Hi. unfold shape_ok, fresh_dev; cbn. unfold u8.
  destruct (Z.leb_spec i 5), (Z.leb_spec i 9); (split; [|split]); intros; try lia;
    rewrite ?Z.mod_small by lia; auto.
Qed.
(** Initialising makes a device channel well-formed whatever it held. *)
Lemma init_dev_ok i k m d : 0 <= i < 13 -> ch_ok k m -> dev_ok i (synced m (fresh_dev i d)).
Proof.
  intros Hi (_ & Hv & Hp & Hn & Hb & _).
  split; [exact (fresh_shape i d Hi)|].
  unfold synced, fresh_dev, valid_map, is_chan, seven in *; cbn. lia.
Qed.

Lemma init_devices_ok chs sel : chs_ok chs -> forall l i,
  0 <= i -> i + Z.of_nat (length l) <= 13 ->
  wok (init_devices chs sel i l) (fun l' =>
    length l' = length l /\
    forall j d', zget l' j = Some d' ->
      exists d, zget l j = Some d /\
        ((sel d = true /\ dev_ok (i + j) d') \/ (sel d = false /\ d' = d))).
Proof.
  intros [Hlen Hch]. induction l as [|d t IH]; intros i Hi Hl; cbn [init_devices length] in *.
  { apply wpw_ret. split; [reflexivity|]. intros j d' H. rewrite zget_nil in H. discriminate. }
  apply wpw_bind. apply wpw_post with (fun d' => (sel d = true /\ dev_ok i d') \/ (sel d = false /\ d' = d)).
  - destruct (sel d); [|apply wpw_ret; auto].
    destruct (zget_in_range chs i) as [m Hm]; [lia|].
    rewrite (init_device_channel_eq _ _ _ _ Hm). split.
    + eapply sync_calls_ok; [|apply fresh_shape|apply (Hch _ _ Hm)]; lia.
    + left. split; [reflexivity|]. eapply init_dev_ok; [lia|apply (Hch _ _ Hm)].
  - intros d' Hd. apply wpw_bind. eapply wpw_post; [apply IH; lia|].
    intros t' [H1 H2]. apply wpw_ret. split; [cbn; congruence|].
    intros j x. rewrite zget_cons. destruct (Z.eqb_spec j 0) as [->|Hj].
    + intros [= <-]. exists d. rewrite Z.add_0_r. split; [reflexivity|assumption].
    + intros Hx. destruct (H2 _ _ Hx) as (d0 & Hd0 & R). exists d0. rewrite zget_cons.
      destruct (Z.eqb_spec j 0); [lia|]. split; [assumption|].
      replace (i + j) with (i + 1 + (j - 1)) by lia. assumption.
Qed.

Lemma zget_assign dyn : forall l i j,
  zget (assign_modes dyn i l) j
  = match zget l j with Some d => Some (d_set_midi d (if dyn then UNASSIGNED else i + j)) | None => None end.
Proof.
  induction l as [|d t IH]; intros i j; cbn [assign_modes]; [rewrite !zget_nil; reflexivity|].
  rewrite !zget_cons. destruct (Z.eqb_spec j 0) as [->|]; [rewrite Z.add_0_r; reflexivity|].
  rewrite IH. destruct (zget t (j - 1)); [|reflexivity].
  replace (i + 1 + (j - 1)) with (i + j) by lia. reflexivity.
Qed.
Lemma assign_length dyn l : forall i, length (assign_modes dyn i l) = length l.
Proof. induction l; intros i; cbn; congruence. Qed.
Lemma dev_ok_midi i d x : dev_ok i d -> valid_map x -> dev_ok i (d_set_midi d x).
Proof. intros (H1 & H2 & H3) Hx. split; [exact H1|]. split; [exact Hx|exact H3]. Qed.
Lemma assign_ok dyn l : devs_ok l -> devs_ok (assign_modes dyn 0 l).
Proof.
  intros [H1 H2]. split; [rewrite assign_length; assumption|].
  intros i d. rewrite zget_assign. destruct (zget l i) as [d0|] eqn:E; [|discriminate].
  intros [= <-]. apply dev_ok_midi; [auto|]. apply zget_Some in E.
  unfold valid_map, is_chan, UNASSIGNED. destruct dyn; lia.
Qed.

Lemma init_chs_ok : chs_ok (map init_midi_channel (zseq 0 16)).
Proof.
  split; [reflexivity|]. intros i m H. assert (Hi := zget_Some _ _ _ H). cbn in Hi.
  assert (E : zget (map init_midi_channel (zseq 0 16)) i = Some (init_midi_channel i)).
  { cut (allb 0 16 (fun i => match zget (map init_midi_channel (zseq 0 16)) i with
                              | Some m => m_num m =? i | None => false end) = true).
    - intros A. pose proof (allb_spec 0 16 _ A i ltac:(lia)) as B. cbv beta in B.
      destruct (zget _ i) as [m'|] eqn:E'; [|discriminate].
      apply Z.eqb_eq in B. f_equal.
      unfold zget in E'. destruct (i <? 0); [discriminate|].
      apply nth_error_In in E'. apply in_map_iff in E' as (k & <- & _). cbn in B. congruence.
    - reflexivity. }
  rewrite E in H. injection H as <-.
  unfold ch_ok, init_midi_channel, stack_ok, seven, BEND_CENTRE; cbn. repeat split; try lia. constructor.
Qed.

Lemma reset_channels_ok s :
  length (md_dev s) = 13%nat -> 0 <= md_pref s <= 2 -> wok (reset_channels s) midi_ok.
Proof.
  intros Hd Hp. unfold reset_channels. apply wpw_bind.
  eapply wpw_post; [apply (init_devices_ok _ _ init_chs_ok); cbn [md_dev md_set_ch]; lia|].
  cbn [md_dev md_set_ch md_ch]. intros l' [H1 H2]. apply wpw_ret, midi_ok_parts. cbn.
  split; [|split; [exact init_chs_ok|exact Hp]].
  apply assign_ok. split; [congruence|]. intros i d Hd'.
  destruct (H2 _ _ Hd') as (d0 & _ & [[_ H]|[H _]]); [exact H|discriminate].
Qed.

Lemma reset_ok s : length (md_dev s) = 13%nat -> wok (reset s) midi_ok.
Proof.
  intros H. unfold reset. do 3 (apply wpw_bind, wpw_emit; [exact I|]).
  apply reset_channels_ok; cbn; [assumption|lia].
Qed.
Lemma midi_init_ok s : length (md_dev s) = 13%nat -> wok (midi_init s) midi_ok.
Proof.
  intros H. unfold midi_init. do 2 (apply wpw_bind, wpw_emit; [exact I|]).
  apply reset_ok. exact H.
Qed.

(** ** Note on / note off *)
Lemma find_dev_spec E C devs p is (Q : option Z -> Prop) :
  length devs = 13%nat -> (forall i, In i is -> 0 <= i < 13) ->
  (forall i d, In i is -> zget devs i = Some d -> p d = true -> Q (Some i)) ->
  ((forall i d, In i is -> zget devs i = Some d -> p d = false) -> Q None) ->
  wpw E C (find_dev devs p is) Q.
Proof.
  intros Hl. induction is as [|i t IH]; intros Hin HS HN; cbn [find_dev].
  { apply wpw_ret, HN. intros i d []. }
  apply wpw_bind. apply wpw_get_in.
  { rewrite Hl. assert (0 <= i < 13) by (apply Hin; left; reflexivity). lia. }
  intros d Hd. destruct (p d) eqn:Ep.
  - apply wpw_ret. eapply HS; eauto. left; reflexivity.
  - apply IH; [intros; apply Hin; right; assumption|intros; eapply HS; eauto; right; assumption|].
    intros H. apply HN. intros j e [<-|Hj] He; [congruence|eauto].
Qed.
Lemma in_upto a b i : In i (upto a b) <-> a <= i <= b.
Proof. unfold upto. rewrite in_zseq. lia. Qed.

Definition found_ok (devs : list dev) (r : option Z) : Prop :=
  match r with None => True | Some i => 0 <= i < 13 end.

Lemma find_dev_found E C devs p a b :
  length devs = 13%nat -> 0 <= a -> b < 13 -> wpw E C (find_dev devs p (upto a b)) (found_ok devs).
Proof.
  intros Hl Ha Hb. apply find_dev_spec; [assumption| | |intros; exact I].
  - intros i H. apply in_upto in H. lia.
  - intros i d H _ _. apply in_upto in H. cbn. lia.
Qed.

Lemma square_found E C devs m inc ps : length devs = 13%nat -> wpw E C (square_loop devs m inc ps) (found_ok devs).
Proof.
  intros Hl. induction ps as [|p t IH]; cbn [square_loop]; [apply wpw_ret; exact I|].
  destruct (_ =? p); [|exact IH]. apply wpw_bind.
  eapply wpw_post; [apply find_dev_found; [assumption|lia|lia]|].
  intros [i|] H; [apply wpw_ret, H|exact IH].
Qed.

Lemma device_min_max_range sel : 0 <= fst (device_min_max sel) /\ snd (device_min_max sel) < 13.
Proof. unfold device_min_max. destruct (sel =? 0), (sel =? 1), (sel =? 2); cbn; lia. Qed.

Lemma find_specific_found E C s inc lo hi :
  length (md_dev s) = 13%nat -> 0 <= lo -> hi < 13 -> wpw E C (findDeviceSpecificChannel s inc lo hi) (found_ok (md_dev s)).
Proof.
  intros Hl H1 H2. unfold findDeviceSpecificChannel.
  assert (Hs : forall lo hi, 0 <= lo -> hi < 13 -> wpw E C
    (let* r := find_dev (md_dev s) (fun d => isChannelSuitable d inc) (upto lo hi) in
     match r with Some i => wret (Some i) | None => find_dev (md_dev s)
        (fun d => (d_midi d =? inc) && negb (isPsgAndIncomingChanIsPercussive d inc)) (upto lo hi) end)
    (found_ok (md_dev s))).
  { intros a b Ha Hb. apply wpw_bind. eapply wpw_post; [apply find_dev_found; [assumption|lia|lia]|].
    intros [i|] H; [apply wpw_ret, H|apply find_dev_found; [assumption|lia|lia]]. }
  destruct (md_stick s); [|apply Hs; assumption].
  apply wpw_bind. eapply wpw_post; [apply find_dev_found; unfold DEV_CHANS; [assumption|lia|lia]|].
  intros [i|] H; [|apply wpw_ret; exact I].
  apply wpw_bind, wpw_get_in; [rewrite Hl; exact H|]. intros d Hd. cbn in H.
  destruct (vt_eqb _ _); apply Hs; lia.
Qed.

Lemma findFree_found E C s inc :
  length (md_dev s) = 13%nat -> 0 <= inc < Z.of_nat (length (md_ch s)) ->
  wpw E C (findFreeChannel s inc) (found_ok (md_dev s)).
Proof.
  intros Hl Hi. unfold findFreeChannel. apply wpw_bind, wpw_get_in; [assumption|]. intros m Hm.
  assert (Hr := device_min_max_range (m_sel m)). destruct (device_min_max (m_sel m)) as [lo hi]; cbn in Hr.
  apply wpw_bind. eapply wpw_post; [apply find_dev_found; [assumption|lia|lia]|].
  intros [i|] H; [apply wpw_ret, H|]. destruct (negb (md_dyn s)).
  { apply find_dev_found; unfold DEV_CHANS; [assumption|lia|lia]. }
  apply wpw_bind. unfold findFreePsgChannelForSquareWaveVoices.
  apply wpw_bind. eapply wpw_get; [eassumption|]. cbv beta.
  eapply wpw_post; [apply square_found; assumption|].
  intros [i|] H'; [apply wpw_ret, H'|].
  apply wpw_bind. eapply wpw_post; [apply find_specific_found; [assumption|lia|lia]|].
  intros [i|] H''; [apply wpw_ret, H''|]. apply find_dev_found; [assumption|lia|lia].
Qed.

Lemma note_on_call_ok E chs d m vel i (Q : unit -> Prop) :
  0 <= i < 13 -> shape_ok i d -> zget chs (d_midi d) = Some m -> seven vel -> Q tt ->
  wpw E dcall_ok (set_downstream_note_on chs d vel) Q.
Proof.
  intros Hi Hs Hm Hv HQ. unfold set_downstream_note_on, effectivePitchCents.
  apply wpw_bind, wpw_bind. eapply wpw_get; [eassumption|]. apply wpw_ret, wpw_emit; [|exact HQ].
  destruct (eff_range m d). cbn. unfold eff in *. split; [eapply shape_voice; eassumption|].
  split; [assumption|]. split; assumption.
Qed.
Lemma pitch_call_ok E chs d m i (Q : unit -> Prop) :
  0 <= i < 13 -> shape_ok i d -> zget chs (d_midi d) = Some m -> Q tt ->
  wpw E dcall_ok (set_downstream_pitch chs d) Q.
Proof.
  intros Hi Hs Hm HQ. unfold set_downstream_pitch, effectivePitchCents.
  apply wpw_bind, wpw_bind. eapply wpw_get; [eassumption|]. apply wpw_ret, wpw_emit; [|exact HQ].
  destruct (eff_range m d). cbn. unfold eff in *. split; [eapply shape_voice; eassumption|]. split; assumption.
Qed.

Ltac dok := unfold dev_ok, seven, valid_map, is_chan, UNASSIGNED, PERCUSSION in *; cbn in *; intuition (auto; try lia).

Lemma start_note_ok s i c p v d :
  midi_ok s -> 0 <= i < 13 -> dev_ok i d -> is_chan c -> seven p -> seven v -> wok (start_note s i c p v d) midi_ok.
Proof.
  intros Hs Hi Hd Hc Hp Hv. unfold start_note.
  destruct (ok_ch_get _ _ Hs Hc) as (m & Hm & Hmok).
  assert (Hsh : shape_ok i d) by apply Hd.
  apply wpw_bind. unfold reapply_program. apply wpw_post with (fun _ => True).
  { destruct (_ && _); [|apply wpw_ret; exact I].
    apply wpw_bind. eapply wpw_get; [eassumption|]. apply wpw_emit; [|exact I].
    cbn. split; [eapply shape_voice; eassumption|apply Hmok]. }
  intros _ _. apply wpw_bind. rewrite (update_from_midi_eq _ _ m) by exact Hm.
  split; [eapply sync_calls_ok; [eassumption| |eassumption]; exact Hsh|].
  apply wpw_bind. eapply note_on_call_ok; [eassumption| |cbn; exact Hm|assumption|].
  { exact Hsh. }
  apply wpw_ret, midi_ok_parts. cbn. apply midi_ok_parts in Hs as (H1 & H2 & H3).
  split; [|auto]. apply devs_ok_set; [assumption|].
  eapply synced_ok; [|eassumption]. destruct Hd as (D1 & D2 & D3 & D4 & D5 & D6 & D7 & D8 & D9).
  split; [exact D1|]. unfold valid_map, seven in *; cbn. split; [left; exact Hc|]. repeat split; try lia; assumption.
Qed.

Lemma note_off_loop_ok chs mc pitch next single m : seven pitch -> seven next -> seven (m_vel m) ->
  (exists mm, zget chs mc = Some mm) ->
  forall l h st i, stack_ok st -> 0 <= i -> i + Z.of_nat (length l) <= 13 ->
  (forall j d, zget l j = Some d -> dev_ok (i + j) d) ->
  wok (note_off_loop chs mc pitch next single m h st l)
      (fun r => stack_ok (fst r) /\ length (snd r) = length l /\
                forall j d, zget (snd r) j = Some d -> dev_ok (i + j) d).
Proof.
  intros Hp Hn Hv [mm Hmm].
  induction l as [|d t IH]; intros h st i Hst Hi Hl Hok; cbn [note_off_loop].
  { apply wpw_ret. cbn. auto. }
  cbn [length] in Hl.
  assert (Hd : dev_ok i d) by (rewrite <- (Z.add_0_r i); apply Hok; reflexivity).
  assert (Ht : forall j d, zget t j = Some d -> dev_ok (i + 1 + j) d).
  { intros j e He. replace (i + 1 + j) with (i + (j + 1)) by lia. apply Hok. rewrite zget_cons.
    assert (Hj := zget_Some _ _ _ He). destruct (Z.eqb_spec (j + 1) 0); [lia|].
    replace (j + 1 - 1) with j by lia. exact He. }
  assert (Hrec : forall h st d', stack_ok st -> dev_ok i d' ->
    wok (let* (st', t') := note_off_loop chs mc pitch next single m h st t in wret (st', d' :: t'))
      (fun r => stack_ok (fst r) /\ length (snd r) = length (d :: t) /\
                forall j d, zget (snd r) j = Some d -> dev_ok (i + j) d)).
  { intros h' st' d' Hst' Hd'. apply wpw_bind. eapply wpw_post; [apply (IH h' st' (i + 1)); auto; lia|].
    intros [st2 t'] (R1 & R2 & R3). apply wpw_ret. cbn [fst snd length] in *. split; [assumption|]. split; [congruence|].
    intros j e. rewrite zget_cons. destruct (Z.eqb_spec j 0) as [->|]; [intros [= <-]; rewrite Z.add_0_r; assumption|].
    intros He. apply R3 in He. replace (i + j) with (i + 1 + (j - 1)) by lia. assumption. }
  destruct ((d_midi d =? mc) && isChannelPlayingNote d pitch) eqn:Ec.
  2:{ apply Hrec; assumption. }
  apply andb_prop in Ec as [Em _]. apply Z.eqb_eq in Em.
  destruct (negb h && single && negb (next =? 0)).
  - apply wpw_bind. apply wpw_post with (fun r => stack_ok (fst r) /\ dev_ok i (snd r)).
    + destruct (m_porta m).
      * destruct (of_np_push st next Hst Hn) as (st' & E & Hst' & _). apply wpw_bind. rewrite E.
        split; [constructor|]. apply wpw_ret. split; [exact Hst'|]. cbn. revert Hd Hn. clear. dok.
      * apply wpw_bind. unfold dev_chan_note_on. apply wpw_bind.
        eapply note_on_call_ok; [|exact (proj1 Hd)|cbn; rewrite Em; exact Hmm|assumption|]; [lia|].
        apply wpw_ret, wpw_ret. cbn. split; [assumption|]. revert Hd Hn. clear. dok.
    + intros [st' d'] [R1 R2]. cbn in *. apply Hrec; assumption.
  - apply wpw_bind. unfold dev_chan_note_off. apply wpw_bind, wpw_emit.
    { cbn. split; [|assumption]. eapply (shape_voice i d); [lia|apply Hd]. }
    apply wpw_ret. apply Hrec; [assumption|]. revert Hd. clear. dok.
Qed.

Lemma midi_note_off_ok c p s :
  midi_ok s -> is_chan c -> seven p -> wok (midi_note_off c p s) midi_ok.
Proof.
  intros Hs Hc Hp. destruct (ok_ch_get _ _ Hs Hc) as (m & Hm & Hmok). unfold midi_note_off.
  apply wpw_bind. eapply wpw_get; [eassumption|].
  assert (Hst : stack_ok (m_np m)) by apply Hmok.
  destruct (of_np_remove _ p Hst) as (st1 & E1 & Hst1 & _). apply wpw_bind. rewrite E1.
  split; [constructor|]. cbv beta iota.
  destruct (of_np_pop _ Hst1) as (st2 & E2 & Hst2 & _ & Hnx). apply wpw_bind. rewrite E2.
  split; [constructor|]. cbv beta iota. apply wpw_bind.
  assert (Hs' := Hs). apply midi_ok_parts in Hs' as (H1 & H2 & H3).
  eapply wpw_post; [apply (note_off_loop_ok (md_ch s) c p _ _ m Hp Hnx) with (i := 0)|].
  - apply Hmok.
  - eauto.
  - exact Hst2.
  - lia.
  - destruct H1 as [-> _]. lia.
  - intros j d Hd. apply H1 in Hd. exact Hd.
  - intros [st l] (R1 & R2 & R3). apply wpw_ret, midi_ok_parts. cbn in *.
    split; [|split; [|assumption]].
    + split; [rewrite R2; apply H1|]. intros i d Hd. apply (R3 _ _ Hd).
    + apply chs_ok_set; [assumption|]. revert Hmok R1. unfold ch_ok; cbn. tauto.
Qed.

Lemma midi_note_on_ok c p v s :
  midi_ok s -> is_chan c -> seven p -> seven v -> wok (midi_note_on c p v s) midi_ok.
Proof.
  intros Hs Hc Hp Hv. unfold midi_note_on. destruct (v =? 0); [apply midi_note_off_ok; assumption|].
  destruct (tooManyPercussiveNotes s c); [apply wpw_ret; assumption|].
  apply wpw_bind. assert (Hs' := Hs). apply midi_ok_parts in Hs' as (H1 & H2 & H3).
  eapply wpw_post; [apply findFree_found; [apply H1|destruct H2 as [-> _]; exact Hc]|].
  intros [i|] Hi; [|apply wpw_ret; assumption]. cbn in Hi.
  destruct (ok_dev_get _ _ Hs Hi) as (d & Hd & Hdok). destruct (ok_ch_get _ _ Hs Hc) as (m & Hm & Hmok).
  apply wpw_bind. eapply wpw_get; [eassumption|]. apply wpw_bind. eapply wpw_get; [eassumption|].
  destruct (is_single_voice_channel s c false); [|apply start_note_ok; assumption].
  destruct (note_priority_isFull (m_np m)); [apply wpw_ret; assumption|].
  destruct (of_np_push (m_np m) p) as (st & E & Hst & _); [apply Hmok|assumption|].
  apply wpw_bind. rewrite E. split; [constructor|]. cbv beta iota.
  assert (Hm' : ch_ok c (m_set_vel (m_set_np m st) v)).
  { revert Hmok Hst Hv. unfold ch_ok; cbn. tauto. }
  assert (Hset : midi_ok (md_set_ch s (zset (md_ch s) c (m_set_vel (m_set_np m st) v)))).
  { apply midi_ok_parts. cbn. split; [assumption|]. split; [|assumption]. apply chs_ok_set; assumption. }
  cbv zeta. destruct (_ && _).
  - apply wpw_ret, midi_ok_parts. apply midi_ok_parts in Hset as (S1 & S2 & S3). cbn in *.
    split; [|auto]. apply devs_ok_set; [assumption|]. revert Hdok Hp. clear. dok.
  - apply start_note_ok; try assumption. revert Hdok. clear. dok.
Qed.

(** ** Controllers *)
Lemma In_zget {A} (l : list A) x : In x l -> exists i, zget l i = Some x.
Proof.
  intros H. apply In_nth_error in H as [n H]. exists (Z.of_nat n). unfold zget.
  destruct (Z.ltb_spec (Z.of_nat n) 0); [lia|]. rewrite Nat2Z.id. exact H.
Qed.

Definition keeps_ok (d d' : dev) : Prop := forall i, dev_ok i d -> dev_ok i d'.
Lemma for_with_ok E mc f l :
  devs_ok l ->
  (forall i d, 0 <= i < 13 -> dev_ok i d -> d_midi d = mc -> wpw E dcall_ok (f d) (keeps_ok d)) ->
  wpw E dcall_ok (for_with mc f l) devs_ok.
Proof.
  intros Hl Hf. eapply wpw_post.
  - apply (wpw_for_with _ _ mc f keeps_ok).
    + intros d Hd Hm. destruct (In_zget _ _ Hd) as [i Hi]. destruct Hl as [L1 L2].
      eapply Hf; [|apply (L2 _ _ Hi)|exact Hm]. apply zget_Some in Hi. lia.
    + intros d _ _ i H. exact H.
  - intros l' HF. eapply devs_ok_F2; [exact Hl|exact HF|]. intros i d d' _ _ H1 H2. apply H2, H1.
Qed.

Lemma ok_set_dev s l : midi_ok s -> devs_ok l -> midi_ok (md_set_dev s l).
Proof. rewrite !midi_ok_parts. cbn. tauto. Qed.
Lemma ok_set_ch s i m : midi_ok s -> ch_ok i m -> midi_ok (md_set_ch s (zset (md_ch s) i m)).
Proof. rewrite !midi_ok_parts. cbn. intros (H1 & H2 & H3) H. split; [assumption|]. split; [|assumption]. apply chs_ok_set; assumption. Qed.
Lemma ok_devs s : midi_ok s -> devs_ok (md_dev s).
Proof. rewrite midi_ok_parts. tauto. Qed.
Lemma ok_chs s : midi_ok s -> chs_ok (md_ch s).
Proof. rewrite midi_ok_parts. tauto. Qed.

Lemma on_ch_ok c f s :
  midi_ok s -> is_chan c -> (forall m, ch_ok c m -> ch_ok c (f m)) -> wok (on_ch c f s) midi_ok.
Proof.
  intros Hs Hc Hf. destruct (ok_ch_get _ _ Hs Hc) as (m & Hm & Hmok). unfold on_ch.
  apply wpw_bind. eapply wpw_get; [eassumption|]. apply wpw_ret, ok_set_ch; auto.
Qed.

Lemma channel_pan_ok c v s : midi_ok s -> is_chan c -> seven v -> wok (channel_pan c v s) midi_ok.
Proof.
  intros Hs Hc Hv. destruct (ok_ch_get _ _ Hs Hc) as (m & Hm & Hmok). unfold channel_pan.
  apply wpw_bind. eapply wpw_get; [eassumption|]. cbv zeta.
  assert (Hs' : midi_ok (md_set_ch s (zset (md_ch s) c (m_set_pan m v)))).
  { apply ok_set_ch; [assumption|]. revert Hmok Hv. unfold ch_ok; cbn. tauto. }
  apply wpw_bind. eapply wpw_post; [|intros l Hl; apply wpw_ret, ok_set_dev; [exact Hs'|exact Hl]].
  apply for_with_ok; [apply ok_devs, Hs'|]. intros i d Hi Hd Hm'. unfold update_pan; cbn.
  destruct (negb _); [|apply wpw_ret; intros j Hj; exact Hj].
  apply wpw_bind, wpw_emit; [split; [eapply shape_voice; [exact Hi|apply Hd]|exact Hv]|].
  apply wpw_ret. intros j. revert Hv. clear. dok.
Qed.
Lemma channel_volume_ok c v s : midi_ok s -> is_chan c -> seven v -> wok (channel_volume c v s) midi_ok.
Proof.
  intros Hs Hc Hv. destruct (ok_ch_get _ _ Hs Hc) as (m & Hm & Hmok). unfold channel_volume.
  apply wpw_bind. eapply wpw_get; [eassumption|]. cbv zeta.
  assert (Hs' : midi_ok (md_set_ch s (zset (md_ch s) c (m_set_vol m v)))).
  { apply ok_set_ch; [assumption|]. revert Hmok Hv. unfold ch_ok; cbn. tauto. }
  apply wpw_bind. eapply wpw_post; [|intros l Hl; apply wpw_ret, ok_set_dev; [exact Hs'|exact Hl]].
  apply for_with_ok; [apply ok_devs, Hs'|]. intros i d Hi Hd Hm'. unfold update_volume; cbn.
  destruct (negb _); [|apply wpw_ret; intros j Hj; exact Hj].
  apply wpw_bind, wpw_emit; [split; [eapply shape_voice; [exact Hi|apply Hd]|exact Hv]|].
  apply wpw_ret. intros j. revert Hv. clear. dok.
Qed.
Lemma midi_program_ok c v s : midi_ok s -> is_chan c -> seven v -> wok (midi_program c v s) midi_ok.
Proof.
  intros Hs Hc Hv. destruct (ok_ch_get _ _ Hs Hc) as (m & Hm & Hmok). unfold midi_program.
  apply wpw_bind. eapply wpw_get; [eassumption|]. cbv zeta.
  assert (Hs' : midi_ok (md_set_ch s (zset (md_ch s) c (m_set_prog m v)))).
  { apply ok_set_ch; [assumption|]. revert Hmok Hv. unfold ch_ok; cbn. tauto. }
  apply wpw_bind. eapply wpw_post.
  - apply for_with_ok; [apply ok_devs, Hs'|]. intros i d Hi Hd Hm'. unfold update_program; cbn.
    destruct (negb _); [|apply wpw_ret; intros j Hj; exact Hj].
    apply wpw_bind, wpw_emit; [split; [eapply shape_voice; [exact Hi|apply Hd]|exact Hv]|].
    apply wpw_ret. intros j. revert Hv. clear. dok.
  - intros l Hl. cbv beta. apply wpw_bind. unfold notify_change. apply wpw_post with (fun _ => True).
    + destruct (md_cb _); [apply wpw_emit; exact I|apply wpw_ret; exact I].
    + intros _ _. apply wpw_ret, ok_set_dev; assumption.
Qed.
Lemma midi_pitch_bend_ok c v s : midi_ok s -> is_chan c -> 0 <= v < 16384 -> wok (midi_pitch_bend c v s) midi_ok.
Proof.
  intros Hs Hc Hv. destruct (ok_ch_get _ _ Hs Hc) as (m & Hm & Hmok). unfold midi_pitch_bend.
  apply wpw_bind. eapply wpw_get; [eassumption|]. cbv zeta.
  assert (Hs' : midi_ok (md_set_ch s (zset (md_ch s) c (m_set_bend m v)))).
  { apply ok_set_ch; [assumption|]. revert Hmok Hv. unfold ch_ok; cbn. tauto. }
  destruct (ok_ch_get _ c Hs' Hc) as (m' & Hm' & _).
  apply wpw_bind. eapply wpw_post; [|intros l Hl; apply wpw_ret, ok_set_dev; [exact Hs'|exact Hl]].
  apply for_with_ok; [apply ok_devs, Hs'|]. intros i d Hi Hd Hc'.
  destruct (d_on d); [|apply wpw_ret; intros j Hj; exact Hj]. unfold update_pitch_bend.
  destruct (negb _); [|apply wpw_ret; intros j Hj; exact Hj].
  apply wpw_bind. eapply pitch_call_ok; [exact Hi|exact (proj1 Hd)|cbn [d_midi d_set_bend]; rewrite Hc'; exact Hm'|].
  apply wpw_ret. intros j. revert Hv. clear. dok.
Qed.
Lemma all_notes_off_ok c s : midi_ok s -> wok (all_notes_off c s) midi_ok.
Proof.
  intros Hs. unfold all_notes_off. apply wpw_bind.
  eapply wpw_post; [|intros l Hl; apply wpw_ret, ok_set_dev; [exact Hs|exact Hl]].
  apply for_with_ok; [apply ok_devs, Hs|]. intros i d Hi Hd Hc'. cbn.
  apply wpw_bind, wpw_emit; [eapply (shape_voice i d); [exact Hi|apply Hd]|].
  apply wpw_ret. intros j. clear. dok.
Qed.
Lemma update_pb_range_ok c v b s : midi_ok s -> is_chan c -> seven v -> wok (update_pb_range c v b s) midi_ok.
Proof.
  intros Hs Hc Hv. destruct (ok_ch_get _ _ Hs Hc) as (m & Hm & Hmok). unfold update_pb_range.
  apply wpw_bind. eapply wpw_get; [eassumption|]. cbv zeta.
  set (m1 := m_set_range m _).
  assert (Hs' : midi_ok (md_set_ch s (zset (md_ch s) c m1))).
  { apply ok_set_ch; [assumption|]. subst m1. revert Hmok Hv. unfold ch_ok, s8, seven. destruct b; cbn; [tauto|].
    intros H Hv. rewrite Z.mod_small by lia. intuition lia. }
  assert (Hn : m_num m1 = c) by apply Hmok.
  destruct (ok_ch_get _ c Hs' Hc) as (m' & Hm' & _).
  apply wpw_bind. eapply wpw_post; [|intros l Hl; apply wpw_ret, ok_set_dev; [exact Hs'|exact Hl]].
  apply for_with_ok; [apply ok_devs, Hs'|]. intros i d Hi Hd Hc'.
  destruct (negb _); [|apply wpw_ret; intros j Hj; exact Hj].
  apply wpw_bind. eapply pitch_call_ok; [exact Hi|exact (proj1 Hd)|rewrite Hc', Hn; exact Hm'|].
  apply wpw_ret. intros j Hj. exact Hj.
Qed.

Lemma set_dynamic_mode_ok mode s : midi_ok s -> 0 <= mode <= 2 -> midi_ok (set_dynamic_mode mode s).
Proof.
  intros Hs Hm. apply midi_ok_parts in Hs as (H1 & H2 & H3). apply midi_ok_parts. unfold set_dynamic_mode.
  destruct (mode =? 1); [|destruct (mode =? 0)]; cbn; (split; [|split]); auto using assign_ok.
Qed.
Lemma resetAllControllers_ok c s : midi_ok s -> is_chan c -> wok (resetAllControllers c s) midi_ok.
Proof.
  intros Hs Hc. destruct (ok_ch_get _ _ Hs Hc) as (m & Hm & Hmok). unfold resetAllControllers.
  apply wpw_bind. eapply wpw_get; [eassumption|]. cbv zeta.
  assert (Hs' : midi_ok (md_set_ch s (zset (md_ch s) c (init_midi_channel c)))).
  { apply ok_set_ch; [assumption|]. unfold ch_ok, init_midi_channel, stack_ok, seven, BEND_CENTRE; cbn.
    repeat split; try lia. constructor. }
  apply wpw_bind. eapply wpw_post.
  - apply (init_devices_ok _ _ (ok_chs _ Hs')); [lia|]. destruct (ok_devs _ Hs') as [-> _]. lia.
  - intros l [L1 L2]. apply wpw_ret. apply set_dynamic_mode_ok; [|cbn; destruct (md_dyn s); cbn; lia].
    apply ok_set_dev; [exact Hs'|]. split; [rewrite L1; apply (ok_devs _ Hs')|].
    intros i d Hd. destruct (L2 _ _ Hd) as (d0 & Hd0 & [[_ H]|[_ ->]]); [exact H|].
    apply (ok_devs _ Hs'). exact Hd0.
Qed.

Lemma remap_ok a b s : midi_ok s -> 0 <= a -> 0 <= b -> wok (midi_remap_channel a b s) midi_ok.
Proof.
  intros Hs Ha Hb. unfold midi_remap_channel, UNASSIGNED, MIDI_CHANNELS, DEV_CHANS.
  destruct (Z.eqb_spec a 0x7F) as [Ea|Ea], (Z.leb_spec 16 a); cbn [negb andb]; try (exfalso; lia);
    try (apply wpw_ret; assumption).
  all: assert (Ma : valid_map a) by (unfold valid_map, is_chan; lia).
  all: destruct (b =? 127); [|destruct (Z.leb_spec 13 b); [apply wpw_ret; assumption|]].
  all: try (apply wpw_bind; eapply wpw_post; [apply find_dev_found; [apply (ok_devs _ Hs)|unfold DEV_CHANS; lia|unfold DEV_CHANS; lia]|];
    intros [i|] Hi; [|apply wpw_ret; assumption]; cbn in Hi).
  all: match goal with |- wpw _ _ (wbind (wget _ ?i) _) _ =>
         destruct (ok_dev_get s i Hs) as (d & Hd & Hdok); [lia|] end.
  all: apply wpw_bind; eapply wpw_get; [eassumption|]; apply wpw_ret, ok_set_dev; [assumption|].
  all: apply devs_ok_set; [apply ok_devs, Hs|apply dev_ok_midi; [assumption|]]; first [exact Ma|right; reflexivity].
Qed.
Lemma remap_all_ok is : forall s, midi_ok s -> (forall i, In i is -> 0 <= i) -> wok (remap_all is s) midi_ok.
Proof.
  induction is as [|i t IH]; intros s Hs Hi; cbn [remap_all]; [apply wpw_ret; assumption|].
  apply wpw_bind. eapply wpw_post; [apply remap_ok; [assumption|lia|apply Hi; left; reflexivity]|].
  intros s' Hs'. apply IH; [assumption|]. intros j Hj; apply Hi; right; assumption.
Qed.
Lemma set_poly_ok b s : midi_ok s -> wok (set_polyphonic_mode b s) midi_ok.
Proof.
  intros Hs. unfold set_polyphonic_mode. cbv zeta.
  assert (midi_ok (set_dynamic_mode (b2z b) s)) by (apply set_dynamic_mode_ok; [assumption|destruct b; cbn; lia]).
  destruct b; [|apply wpw_ret; assumption]. apply remap_all_ok; [assumption|]. intros i Hi. apply in_upto in Hi. lia.
Qed.

Lemma RANGE_bound v r : seven v -> r = 2 \/ r = 4 \/ r = 8 \/ r = 16 \/ r = 32 -> 0 <= RANGE v r < r.
Proof.
  unfold RANGE, seven. intros Hv. intros [-> | [-> | [-> | [-> | ->]]]];
  match goal with |- context [Z.quot 128 ?r] => let x := eval compute in (Z.quot 128 r) in change (Z.quot 128 r) with x end;
  rewrite Z.quot_div_nonneg by lia; lia.
Qed.

Lemma fm_parameter_ok s num k v op : 0 <= num < 6 -> seven v ->
  fm_parameter s num k v = Some op -> SynthSpec.sop_ok op.
Proof.
  intros Hn Hv. unfold fm_parameter.
  assert (R2 := RANGE_bound v 2 Hv). assert (R4 := RANGE_bound v 4 Hv). assert (R8 := RANGE_bound v 8 Hv).
  assert (R16 := RANGE_bound v 16 Hv). assert (R32 := RANGE_bound v 32 Hv).
  assert (RT : SynthSpec.is_u8 (total_level_value s v)).
  { unfold total_level_value, u8, seven, SynthSpec.is_u8 in *. destruct (md_inv s); [|lia]. rewrite Z.mod_small; lia. }
  set (r2 := RANGE v 2) in *. set (r4 := RANGE v 4) in *. set (r8 := RANGE v 8) in *.
  set (r16 := RANGE v 16) in *. set (r32 := RANGE v 32) in *. clearbody r2 r4 r8 r16 r32.
  set (tl := total_level_value s v) in *. clearbody tl. unfold SynthSpec.is_u8 in RT.
  repeat match goal with
  | |- (if ?b then _ else _) = _ -> _ => destruct b eqn:?
  end; try discriminate; intros [= <-]; cbn; unfold SynthSpec.is_ch, SynthSpec.is_op, SynthSpec.is_u8; lia.
Qed.
Lemma set_fm_parameter_ok num k v s : midi_ok s -> 0 <= num < 6 -> seven v -> wok (set_fm_chan_parameter num k v s) midi_ok.
Proof.
  intros Hs Hn Hv. unfold set_fm_chan_parameter. destruct (k =? 78).
  - destruct (md_nogm s); [apply wpw_ret; assumption|]. unfold enable_dac.
    destruct (ok_dev_get s 5 Hs) as (d & Hd & Hdok); [lia|].
    apply wpw_bind. eapply wpw_get; [eassumption|]. cbv zeta. apply wpw_bind, wpw_emit; [exact I|].
    apply wpw_ret, ok_set_dev; [assumption|]. apply devs_ok_set; [apply ok_devs, Hs|].
    destruct Hdok as [(D1 & _ & _) D]. split; [|exact D]. unfold shape_ok; cbn.
    destruct (D1 ltac:(lia)) as [-> _]. destruct (negb _); (split; [|split]); intros; try lia; auto.
  - destruct (fm_parameter s num k v) as [op|] eqn:E; [|apply wpw_ret; assumption].
    destruct (md_nogm s); [apply wpw_ret; assumption|].
    apply wpw_bind, wpw_emit; [exact (fm_parameter_ok _ _ _ _ _ Hn Hv E)|]. apply wpw_ret; assumption.
Qed.
Lemma fm_parameter_cc_ok c k v : seven v -> forall is s, midi_ok s -> (forall i, In i is -> 0 <= i < 13) ->
  wok (fm_parameter_loop c k v is s) midi_ok.
Proof.
  intros Hv. induction is as [|i t IH]; intros s Hs Hi; cbn [fm_parameter_loop]; [apply wpw_ret; assumption|].
  assert (Hi0 : 0 <= i < 13) by (apply Hi; left; reflexivity).
  destruct (ok_dev_get s i Hs Hi0) as (d & Hd & Hdok). apply wpw_bind. eapply wpw_get; [eassumption|].
  apply wpw_bind. eapply wpw_post.
  - instantiate (1 := midi_ok). destruct (_ =? _); [|apply wpw_ret; assumption].
    apply set_fm_parameter_ok; [assumption| |assumption]. eapply shape_num; [exact Hi0|apply Hdok].
  - intros s' Hs'. apply IH; [assumption|]. intros j Hj; apply Hi; right; assumption.
Qed.

Lemma store_from_ok c v l : devs_ok l -> seven v -> wok (store_from_loop c v l) (fun _ => True).
Proof.
  intros [Hl Hd] Hv. assert (Hin : forall d, In d l -> exists i, 0 <= i < 13 /\ dev_ok i d).
  { intros d H. destruct (In_zget _ _ H) as [i Hi]. exists i. split; [apply zget_Some in Hi; lia|auto]. }
  clear Hl Hd. induction l as [|d t IH]; cbn [store_from_loop]; [apply wpw_ret; exact I|].
  destruct (_ && _); [|apply IH; intros e He; apply Hin; right; exact He].
  apply wpw_emit; [|exact I]. destruct (Hin d) as (i & Hi & Hdok); [left; reflexivity|].
  split; [|exact Hv]. eapply shape_num; [exact Hi|apply Hdok].
Qed.

Lemma porta_get v : seven v -> exists t, zget portaTimeToInterval v = Some t /\ 1 <= t <= 1145.
Proof.
  intros Hv. destruct (zget_in_range portaTimeToInterval v) as [t Ht]; [exact Hv|].
  exists t. split; [assumption|]. revert Ht. apply (Forall_zget (fun t => 1 <= t <= 1145)).
  unfold portaTimeToInterval. repeat (constructor; [lia|]). constructor.
Qed.

Lemma cc_action_ok c k v s : midi_ok s -> is_chan c -> seven k -> seven v -> wok (cc_action c k v s) midi_ok.
Proof.
  intros Hs Hc Hk Hv. unfold cc_action. destruct (ok_ch_get _ _ Hs Hc) as (m & Hm & Hmok).
  apply wpw_bind. eapply wpw_get; [eassumption|]. cbv beta.
  assert (Hw : wok (wret s) midi_ok) by (apply wpw_ret; assumption).
  destruct (k =? 5).
  { destruct (porta_get v Hv) as (t & Ht & Hr). apply wpw_bind. eapply wpw_get; [eassumption|].
    apply on_ch_ok; [assumption|assumption|]. intros m0. unfold ch_ok; cbn. clear -Hr. intuition lia. }
  destruct (k =? 7); [apply channel_volume_ok; assumption|].
  destruct (k =? 10); [apply channel_pan_ok; assumption|].
  destruct ((k =? 123) || (k =? 120)); [apply all_notes_off_ok; assumption|].
  destruct (k =? 84); [apply set_poly_ok; assumption|].
  destruct (k =? 80); [apply wpw_bind, wpw_emit; [exact I|exact Hw]|].
  destruct (k =? 121); [apply resetAllControllers_ok; assumption|].
  destruct (k =? 83); [destruct (md_nogm s); [exact Hw|apply wpw_bind, wpw_emit; [exact I|exact Hw]]|].
  destruct (k =? 86).
  { destruct (md_nogm s); [exact Hw|]. apply on_ch_ok; [assumption|assumption|]. intros m0.
    assert (R := RANGE_bound v 4 Hv ltac:(auto)). unfold ch_ok; cbn. clear -R. tauto. }
  destruct (k =? 65); [apply on_ch_ok; [assumption|assumption|]; intros m0; unfold ch_ok; cbn; tauto|].
  destruct (k =? 85).
  { destruct (md_nogm s); [exact Hw|]. apply on_ch_ok; [assumption|assumption|]. intros m0.
    assert (R : -64 <= s8 (v - 64) < 64) by (unfold s8, seven in *; rewrite Z.mod_small; lia).
    unfold ch_ok; cbn. clear -R. tauto. }
  assert (Hr : forall b, wok (rpn_data_entry c v b s) midi_ok).
  { intros b. unfold rpn_data_entry. apply wpw_bind. eapply wpw_get; [eassumption|].
    destruct (_ =? 0); [apply update_pb_range_ok; assumption|exact Hw]. }
  destruct (k =? 6); [apply Hr|]. destruct (k =? 38); [apply Hr|].
  destruct (k =? 101); [apply on_ch_ok; [assumption|assumption|]; intros m0; unfold ch_ok; cbn; tauto|].
  destruct (k =? 100); [apply on_ch_ok; [assumption|assumption|]; intros m0; unfold ch_ok; cbn; tauto|].
  destruct (_ || _); [exact Hw|].
  destruct (k =? 87).
  { apply wpw_bind. eapply wpw_post; [apply store_from_ok; [apply ok_devs, Hs|exact Hv]|]. intros _ _; exact Hw. }
  unfold fm_parameter_cc. apply fm_parameter_cc_ok; [assumption|assumption|].
  intros i Hi. apply in_zseq in Hi. lia.
Qed.
Lemma midi_cc_ok c k v s : midi_ok s -> is_chan c -> seven k -> seven v -> wok (midi_cc c k v s) midi_ok.
Proof.
  intros Hs Hc Hk Hv. unfold midi_cc. apply wpw_bind.
  eapply wpw_post; [apply cc_action_ok; assumption|]. intros s' Hs'. apply wpw_bind. unfold notify_change.
  destruct (md_cb s'); [apply wpw_emit; [exact I|]|apply wpw_ret]; apply wpw_ret; assumption.
Qed.

(** ** System exclusive *)
Lemma general_midi_reset_ok s : midi_ok s -> wok (general_midi_reset s) midi_ok.
Proof.
  intros Hs. unfold general_midi_reset. apply wpw_bind. apply wpw_post with midi_ok.
  - generalize (zseq 0 16). intros l. revert s Hs. induction l as [|i t IH]; intros s Hs; cbn [all_channels_off].
    + apply wpw_ret; assumption.
    + apply wpw_bind. eapply wpw_post; [apply all_notes_off_ok; assumption|]. intros s'. apply IH.
  - intros s' (H1 & H2 & H3 & H4 & H5). apply reset_channels_ok; destruct (_ =? 2); cbn; assumption.
Qed.

Lemma wdata_in E C data i (Q : Z -> Prop) :
  Forall seven data -> 0 <= i < Z.of_nat (length data) -> (forall x, seven x -> Q x) -> wpw E C (wdata data i) Q.
Proof.
  intros Hd Hi HQ. unfold wdata. destruct (zget_in_range data i Hi) as [x Hx]. rewrite Hx.
  apply wpw_ret, HQ. eapply Forall_zget; eassumption.
Qed.
Lemma bits_range n x : 0 <= n -> 0 <= bits n x < 2 ^ n.
Proof. intros H. unfold bits. apply Z.mod_pos_bound. apply Z.pow_pos_nonneg; lia. Qed.

Lemma store_operator_ok data i (E : fault -> Prop) :
  Forall seven data -> length data = 50%nat -> 0 <= i < 4 -> wpw E dcall_ok (store_operator data i) SynthSpec.op_ok.
Proof.
  intros Hd Hl Hi. unfold store_operator.
  do 11 (apply wpw_bind, wdata_in; [assumption|lia|intros ? _]).
  apply wpw_ret. unfold SynthSpec.op_ok; cbn.
  repeat split; apply bits_range; lia.
Qed.

Lemma nib_range a b : 0 <= u8 (Z.lor (Z.shiftl a 4) b) < 256.
Proof. unfold u8. lia. Qed.

Lemma envelope_bytes_ok : forall n data, (length data <= n)%nat ->
  wpw (fun f => f = F_uninit /\ Nat.Odd (length data)) dcall_ok (envelope_bytes data)
      (fun bs => Forall PsgSpec.byte bs /\ length data = (2 * length bs)%nat).
Proof.
  induction n as [|n IH]; intros data Hn.
  { destruct data; [|cbn in Hn; lia]. apply wpw_ret. split; [constructor|reflexivity]. }
  destruct data as [|a [|b t]]; cbn [envelope_bytes length] in *.
  - apply wpw_ret. split; [constructor|reflexivity].
  - cbn. split; [reflexivity|]. exists 0%nat. lia.
  - apply wpw_bind. eapply wpw_mono; [apply (IH t); lia| | |].
    + intros f [-> [k Hk]]. split; [reflexivity|]. exists (S k). lia.
    + auto.
    + intros bs [B1 B2]. apply wpw_ret. cbn. split; [|lia].
      constructor; [|assumption]. exact (nib_range a b).
Qed.

Definition sysex_fault (data : list Z) (f : fault) : Prop := f = F_uninit /\ odd_envelope (MSysex data).

Lemma has_prefix_app p : forall data, has_prefix p data = true -> exists t, data = p ++ t.
Proof.
  induction p as [|x p IH]; intros data H; [exists data; reflexivity|].
  destruct data as [|y d]; [discriminate|]. cbn in H. apply andb_prop in H as [H1 H2].
  apply Z.eqb_eq in H1 as ->. destruct (IH _ H2) as [t ->]. exists t. reflexivity.
Qed.

Lemma midi_sysex_ok data s : midi_ok s -> Forall seven data -> (length data <= 256)%nat ->
  wpw (sysex_fault data) dcall_ok (midi_sysex data s) midi_ok.
Proof.
  intros Hs Hd Hl. unfold midi_sysex.
  assert (HW : forall s', midi_ok s' -> wpw (sysex_fault data) dcall_ok (wret s') midi_ok) by (intros; apply wpw_ret; assumption).
  assert (HN : forall m, wok m midi_ok -> wpw (sysex_fault data) dcall_ok m midi_ok).
  { intros m H. eapply wpw_mono; [exact H|intros f []|auto|auto]. }
  destruct (Z.ltb_spec (Z.of_nat (length data)) 4); [apply HW, Hs|].
  destruct (has_prefix _ data); [apply HN, general_midi_reset_ok, Hs|].
  destruct (has_prefix _ data) eqn:Ep; cbn [negb]; [|apply HW, Hs].
  destruct (has_prefix_app _ _ Ep) as [t ->]. cbn [app] in *. clear Ep.
  destruct t as [|cmd l]; [cbn in H; lia|]. clear H.
  apply wpw_bind. change (wdata (0 :: 34 :: 119 :: cmd :: l) 3) with (@wret Z cmd). apply wpw_ret.
  cbn [skipn]. assert (Hdl : Forall seven l) by (do 4 apply Forall_inv_tail in Hd; exact Hd).
  assert (Hll : (length l <= 252)%nat) by (cbn in Hl; lia). clear Hd Hl.
  destruct (sysex_handler cmd) as [h|] eqn:Eh; [|apply HW, Hs].
  assert (HF : forall n h, (length l = n -> wok (h l s) midi_ok) ->
    wpw (sysex_fault (0 :: 34 :: 119 :: cmd :: l)) dcall_ok (fixed_length (Z.of_nat n) h l s) midi_ok).
  { intros n h0 H. unfold fixed_length. destruct (Z.eqb_spec (Z.of_nat (length l)) (Z.of_nat n)) as [E|]; cbn [negb];
      [|apply HW, Hs]. apply HN, H. lia. }
  assert (HB : forall E n (Q : Z -> Prop) (i : Z), length l = n -> 0 <= i < Z.of_nat n -> (forall x, seven x -> Q x) ->
     wpw E dcall_ok (wdata l i) Q).
  { intros E n Q i <- Hi HQ. apply wdata_in; assumption. }
  assert (Hcases : cmd = 0 \/ cmd = 1 \/ cmd = 3 \/ cmd = 4 \/ cmd = 5 \/ cmd = 6 \/ cmd = 7 \/ cmd = 8 \/ cmd = 9 \/
     cmd = 10 \/ cmd = 11 \/ cmd = 12 \/ cmd = 13 \/ cmd = 15).
  { unfold sysex_handler in Eh. destruct cmd as [|q|q]; [auto| |discriminate].
    do 5 (try destruct q as [q|q|]); try discriminate; lia. }
  repeat (destruct Hcases as [-> | Hcases]); [..|subst cmd]; injection Eh as <-.
  - (* remap *) apply (HF 2%nat). intros Hn. apply wpw_bind, (HB _ _ _ _ Hn); [lia|]. intros a Ha.
    apply wpw_bind, (HB _ _ _ _ Hn); [lia|]. intros b Hb. apply remap_ok; unfold seven in *; try assumption; lia.
  - (* ping *) apply HN. unfold send_pong. apply wpw_bind. apply wpw_post with (Forall seven).
    { destruct Hdl; apply wpw_ret; [constructor|]. constructor; [assumption|constructor]. }
    intros f Hf. apply wpw_bind. apply wpw_post with (Forall seven).
    { destruct (Z.leb_spec 3 (Z.of_nat (length l))); [|apply wpw_ret; constructor].
      apply wpw_bind, wdata_in; [assumption|lia|]. intros x _. destruct (x =? 1); apply wpw_ret; [|constructor].
      rewrite <- (firstn_skipn 2 l) in Hdl. apply Forall_app in Hdl. apply Hdl. }
    intros r Hr. apply wpw_bind, wpw_emit; [|apply wpw_ret; assumption].
    cbn [dcall_ok]. apply Forall_app; split; [repeat constructor; lia|]. apply Forall_app; split; assumption.
  - apply (HF 1%nat). intros Hn. apply wpw_bind, (HB _ _ _ _ Hn); [lia|]. intros a Ha. apply wpw_ret.
    apply set_dynamic_mode_ok; [assumption|]. destruct (negb _); cbn; lia.
  - apply (HF 1%nat). intros Hn. apply wpw_bind, (HB _ _ _ _ Hn); [lia|]. intros a Ha. apply wpw_ret. exact Hs.
  - apply (HF 1%nat). intros Hn. apply wpw_bind, (HB _ _ _ _ Hn); [lia|]. intros a Ha. apply wpw_ret. exact Hs.
  - (* envelope *) unfold load_psg_envelope. apply wpw_bind.
    eapply wpw_mono; [apply (envelope_bytes_ok (length l)); lia| | |].
    + intros f [-> Ho]. split; [reflexivity|]. exists l. split; [reflexivity|exact Ho].
    + auto.
    + intros bs [B1 B2]. destruct (Z.leb_spec 256 (Z.of_nat (length bs))); [lia|].
      apply wpw_bind, wpw_emit; [|apply wpw_ret; assumption]. split.
      * apply Forall_app; split; [assumption|repeat constructor; lia].
      * exists (length bs). split; [lia|]. rewrite nth_error_app2, Nat.sub_diag by lia. reflexivity.
  - apply (HF 1%nat). intros Hn. apply wpw_bind, (HB _ _ _ _ Hn); [lia|]. intros a Ha. apply wpw_ret. exact Hs.
  - apply (HF 4%nat). intros Hn. unfold direct_write. rewrite Hn. cbn [negb Z.of_nat].
    do 4 (apply wpw_bind, (HB _ _ _ _ Hn); [lia|intros ? _]). apply wpw_bind, wpw_emit; [|apply wpw_ret; assumption].
    cbn. unfold SynthSpec.is_u8. split; [lia|]. split; apply nib_range.
  - apply (HF 4%nat). intros Hn. unfold direct_write. rewrite Hn. cbn [negb Z.of_nat].
    do 4 (apply wpw_bind, (HB _ _ _ _ Hn); [lia|intros ? _]). apply wpw_bind, wpw_emit; [|apply wpw_ret; assumption].
    cbn. unfold SynthSpec.is_u8. split; [lia|]. split; apply nib_range.
  - (* store *) apply (HF 50%nat). intros Hn. unfold store_program.
    do 2 (apply wpw_bind, (HB _ _ _ _ Hn); [lia|intros]). destruct (_ =? 0); [|apply wpw_ret; assumption].
    do 4 (apply wpw_bind, (HB _ _ _ _ Hn); [lia|intros ? _]).
    do 4 (apply wpw_bind; eapply wpw_post; [apply store_operator_ok; [assumption|assumption|lia]|intros ? ?]).
    apply wpw_bind, wpw_emit; [|apply wpw_ret; assumption].
    cbn. split; [assumption|]. unfold SynthSpec.preset_ok; cbn.
    split; [apply bits_range; lia|]. split; [apply bits_range; lia|]. split; [apply bits_range; lia|].
    split; [apply bits_range; lia|]. split; [reflexivity|]. do 4 (apply Forall_cons; [assumption|]). apply Forall_nil.
  - apply (HF 2%nat). intros Hn. unfold clear_program.
    do 2 (apply wpw_bind, (HB _ _ _ _ Hn); [lia|intros]). destruct (_ =? 0); [|apply wpw_ret; assumption].
    apply wpw_bind, wpw_emit; [assumption|apply wpw_ret; assumption].
  - apply (HF 1%nat). intros Hn. unfold clear_all_programs.
    apply wpw_bind, (HB _ _ _ _ Hn); [lia|intros]. destruct (_ =? 0); [|apply wpw_ret; assumption].
    apply wpw_bind. apply wpw_post with (fun _ => True); [|intros; apply wpw_ret; assumption].
    assert (Hz : forall i, In i (zseq 0 128) -> seven i) by (intros i Hi; apply in_zseq in Hi; unfold seven; lia).
    revert Hz. generalize (zseq 0 128). clear. intros is Hz. induction is as [|i t IH]; cbn [clear_all_loop].
    + apply wpw_ret; exact I.
    + apply wpw_bind, wpw_emit; [apply Hz; left; reflexivity|]. apply IH. intros j Hj. apply Hz; right; exact Hj.
  - apply (HF 2%nat). intros Hn. unfold dump_preset_request.
    do 2 (apply wpw_bind, (HB _ _ _ _ Hn); [lia|intros]). destruct (_ =? 0); [|apply wpw_ret; assumption].
    apply wpw_bind, wpw_emit; [assumption|apply wpw_ret; assumption].
  - apply (HF 2%nat). intros Hn. unfold dump_channel_request, MIDI_CHANNELS.
    apply wpw_bind, (HB _ _ _ _ Hn); [lia|]. intros ty _. apply wpw_bind, (HB _ _ _ _ Hn); [lia|]. intros mc Hmc.
    destruct (Z.leb_spec 16 mc); [apply wpw_ret; assumption|]. destruct (ty =? 0); [|apply wpw_ret; assumption].
    apply wpw_bind. eapply wpw_post; [apply find_dev_found; [apply (ok_devs _ Hs)|unfold DEV_CHANS; lia|unfold DEV_CHANS; lia]|].
    intros [i|] Hi; [|apply wpw_ret; assumption]. cbn in Hi.
    destruct (ok_dev_get s i Hs Hi) as (d & Hdd & Hdok). apply wpw_bind. eapply wpw_get; [eassumption|].
    destruct (negb _); [apply wpw_ret; assumption|]. apply wpw_bind, wpw_emit; [|apply wpw_ret; assumption].
    cbn. unfold is_chan, seven in *. split; [lia|]. eapply shape_num; [exact Hi|apply Hdok].
Qed.

(** ** Tick *)
Lemma glide_ok chs n d i m :
  0 <= i < 13 -> dev_ok i d -> zget chs (d_midi d) = Some m -> wok (process_channel_glide chs n d) (keeps_ok d).
Proof.
  intros Hi Hd Hm. unfold process_channel_glide.
  destruct (_ || _); [apply wpw_ret; intros j Hj; exact Hj|]. cbv zeta.
  match goal with |- context [pc_shift ?a ?b] =>
    destruct (pc_shift_norm a b) as [P1 P2]; set (pc := pc_shift a b) in * end. clearbody pc.
  apply wpw_bind. eapply pitch_call_ok; [exact Hi| |cbn; destruct (_ || _); cbn; exact Hm|].
  - destruct (_ || _); exact (proj1 Hd).
  - apply wpw_ret. intros j. destruct (_ || _); clear -P1 P2; unfold u8; dok.
Qed.
Lemma portamento_ok chs : chs_ok chs -> forall l, (forall d, In d l -> exists i, 0 <= i < 13 /\ dev_ok i d) ->
  wok (process_portamento chs l) (Forall2 keeps_ok l).
Proof.
  intros [C1 C2]. induction l as [|d t IH]; intros Hl; cbn [process_portamento]; [apply wpw_ret; constructor|].
  apply wpw_bind. apply wpw_post with (keeps_ok d).
  - assert (Hkeep : keeps_ok d d) by (intros j Hj; exact Hj).
    destruct (Z.eqb_spec (d_midi d) UNASSIGNED); [apply wpw_ret; exact Hkeep|].
    destruct (Hl d) as (i & Hi & Hd); [left; reflexivity|].
    destruct (zget_in_range chs (d_midi d)) as [m Hm].
    { destruct Hd as (_ & [V|V] & _); [unfold is_chan in V; lia|unfold UNASSIGNED in *; lia]. }
    apply wpw_bind. eapply wpw_get; [eassumption|]. destruct (_ && _); [|apply wpw_ret; exact Hkeep].
    eapply glide_ok; eassumption.
  - intros d' Hd'. apply wpw_bind. eapply wpw_post; [apply IH; intros; apply Hl; right; assumption|].
    intros t' Ht'. apply wpw_ret. constructor; assumption.
Qed.
Lemma midi_tick_ok s : midi_ok s -> wok (midi_tick s) midi_ok.
Proof.
  intros Hs. unfold midi_tick. apply wpw_bind. eapply wpw_post.
  - apply portamento_ok; [apply ok_chs, Hs|]. intros d Hd. destruct (In_zget _ _ Hd) as [i Hi].
    exists i. apply and_comm. apply (ok_dev _ _ _ Hs Hi).
  - intros l' HF. apply wpw_ret, ok_set_dev; [assumption|].
    eapply devs_ok_F2; [apply ok_devs, Hs|exact HF|]. intros i d d' _ _ H1 H2. apply H2, H1.
Qed.

(** ** All operations *)
Definition step_fault (op : mop) (f : fault) : Prop := f = F_uninit /\ odd_envelope op.
Lemma midi_step_ok op s : midi_ok s -> mop_ok op -> wpw (step_fault op) dcall_ok (midi_step op s) midi_ok.
Proof.
  intros Hs Ho.
  assert (HN : forall m, wok m midi_ok -> wpw (step_fault op) dcall_ok m midi_ok).
  { intros m H. eapply wpw_mono; [exact H|intros f []|auto|auto]. }
  destruct op; cbn [midi_step mop_ok] in *.
  - apply HN, midi_note_on_ok; tauto.
  - apply HN, midi_note_off_ok; tauto.
  - apply HN, midi_cc_ok; tauto.
  - apply HN, midi_program_ok; tauto.
  - apply HN, midi_pitch_bend_ok; tauto.
  - apply midi_sysex_ok; tauto.
  - apply HN, reset_ok. apply Hs.
  - apply HN, midi_tick_ok; assumption.
  - apply HN, wpw_ret. exact Hs.
Qed.

(** A whole history: no fault unless it contains an odd envelope upload. *)
Lemma midi_run_ok ops : forall s, midi_ok s -> Forall mop_ok ops ->
  wpw (fun f => f = F_uninit /\ Exists odd_envelope ops) dcall_ok (midi_run ops s) midi_ok.
Proof.
  induction ops as [|op t IH]; intros s Hs Ho; cbn [midi_run]; [apply wpw_ret; assumption|].
  apply wpw_bind. eapply wpw_mono; [apply midi_step_ok; [assumption|exact (Forall_inv Ho)]| |auto|].
  - intros f [-> H]. split; [reflexivity|]. left. exact H.
  - intros s' Hs'. eapply wpw_mono; [apply (IH _ Hs' (Forall_inv_tail Ho))| |auto|auto].
    intros f [-> H]. split; [reflexivity|]. right. exact H.
Qed.
Lemma midi_boot_ok ops : Forall mop_ok ops ->
  wpw (fun f => f = F_uninit /\ Exists odd_envelope ops) dcall_ok (midi_boot ops) midi_ok.
Proof.
  intros Ho. unfold midi_boot. apply wpw_bind. eapply wpw_mono; [apply midi_init_ok; reflexivity|intros f []|auto|].
  intros s Hs. apply midi_run_ok; assumption.
Qed.
