(** The mapping table stays valid under arbitrary message bytes. *)
From Verif Require Import Base BaseLemmas PitchModel NotePriorityModel SynthModel.
From Verif Require Import MidiModel MidiSpec MidiProofs MidiOkProofs MidiEqProofs MidiEffectProofs.

(** Partial correctness: what holds if the function finishes. *)
Definition thus {A} (m : wres A) (Q : A -> Prop) : Prop := match m with WDone a _ => Q a | WFault _ => True end.
Lemma thus_ret {A} (a : A) (Q : A -> Prop) : Q a -> thus (wret a) Q. Proof. exact (fun H => H). Qed.
Lemma thus_bind {A B} (m : wres A) (k : A -> wres B) (P : A -> Prop) (Q : B -> Prop) :
  thus m P -> (forall a, P a -> thus (k a) Q) -> thus (wbind m k) Q.
Proof. unfold thus, wbind. destruct m as [a o|f]; [|auto]. intros H1 H2. specialize (H2 a H1). destruct (k a); auto. Qed.
Lemma thus_any {A} (m : wres A) : thus m (fun _ => True). Proof. destruct m; exact I. Qed.
Lemma thus_bind_any {A B} (m : wres A) (k : A -> wres B) (Q : B -> Prop) :
  (forall a, thus (k a) Q) -> thus (wbind m k) Q.
Proof. intros H. apply (thus_bind m k (fun _ => True)); [apply thus_any|auto]. Qed.

Definition table_ok (l : list dev) : Prop := length l = 13%nat /\ forall i d, zget l i = Some d -> valid_map (d_midi d).
Definition maps_ok (s : midi) : Prop := table_ok (md_dev s).

Lemma table_zset l i d : table_ok l -> valid_map (d_midi d) -> table_ok (zset l i d).
Proof.
  intros [H1 H2] Hd. split; [rewrite zset_length; exact H1|]. intros j x Hx.
  destruct (Z.eq_dec j i) as [->|Hj]; [|rewrite zget_zset_other in Hx by congruence; apply (H2 j x Hx)].
  assert (Hi := zget_Some _ _ _ Hx). rewrite zset_length in Hi. rewrite zget_zset_same in Hx by exact Hi. injection Hx as <-. exact Hd.
Qed.
(** Functions rewriting device channels one by one. *)
Lemma same_table l l' : table_ok l -> length l' = length l ->
  (forall i d d', zget l i = Some d -> zget l' i = Some d' -> d_midi d' = d_midi d \/ valid_map (d_midi d')) -> table_ok l'.
Proof.
  intros [H1 H2] Hl H. split; [congruence|]. intros i d' Hd'. destruct (zget_in_range l i) as [d Hd].
  { rewrite <- Hl. eapply zget_Some; exact Hd'. }
  destruct (H i d d' Hd Hd') as [->|]; [apply (H2 i d Hd)|assumption].
Qed.
Definition like (l l' : list dev) : Prop := Forall2 (fun d d' => d_midi d' = d_midi d) l l'.
Lemma like_table l l' : table_ok l -> like l l' -> table_ok l'.
Proof.
  intros Hl H. apply Forall2_zget in H as [H1 H2]. apply (same_table l); [exact Hl|exact H1|]. intros i d d' Hd Hd'. left. eauto.
Qed.
Definition keeps (f : dev -> wres dev) : Prop := forall d, thus (f d) (fun d' => d_midi d' = d_midi d).
Lemma for_with_like mc f l : keeps f -> thus (for_with mc f l) (like l).
Proof.
  intros Hf. induction l as [|d t IH]; cbn [for_with]; [constructor|].
  apply (thus_bind _ _ (fun d' => d_midi d' = d_midi d)); [destruct (_ =? _); [apply Hf|reflexivity]|].
  intros d' Hd. apply (thus_bind _ _ _ _ IH). intros t' Ht. constructor; assumption.
Qed.
Lemma keeps_volume m : keeps (update_volume m).
Proof. intros d. unfold update_volume. destruct (negb _); [|reflexivity]. apply thus_bind_any. intros ?. reflexivity. Qed.
Lemma keeps_pan m : keeps (update_pan m).
Proof. intros d. unfold update_pan. destruct (negb _); [|reflexivity]. apply thus_bind_any. intros ?. reflexivity. Qed.
Lemma keeps_program m : keeps (update_program m).
Proof. intros d. unfold update_program. destruct (negb _); [|reflexivity]. apply thus_bind_any. intros ?. reflexivity. Qed.
Lemma keeps_bend chs m : keeps (update_pitch_bend chs m).
Proof. intros d. unfold update_pitch_bend. destruct (negb _); [|reflexivity]. cbv zeta. apply thus_bind_any. intros ?. reflexivity. Qed.
Lemma keeps_update chs : keeps (update_from_midi chs).
Proof.
  intros d. unfold update_from_midi. apply thus_bind_any. intros m. apply thus_bind_any. intros _.
  eapply thus_bind; [apply keeps_volume|]. intros d1 H1. eapply thus_bind; [apply keeps_pan|]. intros d2 H2.
  eapply thus_bind; [apply keeps_program|]. intros d3 H3.
  assert (K := keeps_bend chs m d3). unfold thus in *. destruct (update_pitch_bend chs m d3); [congruence|exact I].
Qed.
Lemma init_device_maps chs i d : thus (init_device_channel chs i d) (fun d' => d_midi d' = i).
Proof.
  unfold init_device_channel. cbv zeta. match goal with |- thus (update_from_midi _ ?e) _ => assert (K := keeps_update chs e) end.
  exact K.
Qed.
Lemma init_devices_maps chs sel : forall l i,
  thus (init_devices chs sel i l) (fun l' => length l' = length l /\
    forall j d d', zget l j = Some d -> zget l' j = Some d' -> d_midi d' = d_midi d \/ d_midi d' = i + j).
Proof.
  induction l as [|d t IH]; intros i; cbn [init_devices].
  { split; [reflexivity|]. intros j ? ? H. rewrite zget_nil in H. discriminate. }
  apply (thus_bind _ _ (fun d' => d_midi d' = d_midi d \/ d_midi d' = i)).
  { destruct (sel d); [|left; reflexivity]. assert (K := init_device_maps chs i d). unfold thus in *. destruct (init_device_channel chs i d); auto. }
  intros d' Hd. apply (thus_bind _ _ _ _ (IH (i + 1))). intros t' [Ht1 Ht2]. split; [cbn; congruence|].
  intros j x x'. rewrite !zget_cons. destruct (Z.eqb_spec j 0) as [->|Hj].
  - intros [= <-] [= <-]. rewrite Z.add_0_r. exact Hd.
  - intros H1 H2. destruct (Ht2 _ _ _ H1 H2); [auto|right; lia].
Qed.
Lemma init_devices_table chs sel l : table_ok l -> thus (init_devices chs sel 0 l) table_ok.
Proof.
  intros Hl. assert (K := init_devices_maps chs sel l 0). unfold thus in *. destruct (init_devices chs sel 0 l) as [l' o|f]; [|exact I].
  destruct K as [K1 K2]. apply (same_table l); [exact Hl|exact K1|]. intros j d d' H1 H2. destruct (K2 j d d' H1 H2) as [K|K]; [auto|right].
  apply zget_Some in H1. destruct Hl as [Hl _]. left. unfold is_chan. lia.
Qed.
Lemma assign_table b l : table_ok l -> table_ok (assign_modes b 0 l).
Proof.
  intros Hl. apply (same_table l); [exact Hl|apply assign_length|]. intros i d d' Hd. rewrite zget_assign, Hd. intros [= <-]. right.
  cbn [d_midi d_set_midi]. apply zget_Some in Hd. destruct Hl as [Hl _]. destruct b; [right; reflexivity|left; unfold is_chan; lia].
Qed.
Lemma set_dynamic_maps n s : maps_ok s -> maps_ok (set_dynamic_mode n s).
Proof.
  intros H. unfold set_dynamic_mode. destruct (n =? 1); [apply assign_table; exact H|].
  destruct (n =? 0); [apply assign_table; exact H|exact H].
Qed.
Lemma reset_channels_maps s : maps_ok s -> thus (reset_channels s) maps_ok.
Proof.
  intros H. unfold reset_channels. cbv zeta. eapply thus_bind; [apply init_devices_table; exact H|].
  intros l Hl. apply assign_table, Hl.
Qed.

Lemma note_on_keeps chs p v : forall d, thus (dev_chan_note_on chs d p v) (fun d' => d_midi d' = d_midi d).
Proof. intros d. unfold dev_chan_note_on. cbv zeta. apply thus_bind_any. intros _. reflexivity. Qed.
Lemma note_off_loop_like chs mc p next single m : forall l h st,
  thus (note_off_loop chs mc p next single m h st l) (fun r => like l (snd r)).
Proof.
  induction l as [|d t IH]; intros h st; cbn [note_off_loop]; [constructor|].
  assert (K : forall h st d', d_midi d' = d_midi d ->
     thus (let* (st, t') := note_off_loop chs mc p next single m h st t in wret (st, d' :: t')) (fun r => like (d :: t) (snd r))).
  { intros h' st' d' Hd. apply (thus_bind _ _ _ _ (IH h' st')). intros [st1 t1] Ht. constructor; assumption. }
  destruct (_ && _); [|apply K; reflexivity]. destruct (_ && _).
  - apply (thus_bind _ _ (fun r => d_midi (snd r) = d_midi d)).
    + destruct (m_porta m).
      * apply thus_bind_any. intros [_ st1]. reflexivity.
      * apply (thus_bind _ _ (fun d' => d_midi d' = d_midi d)); [apply note_on_keeps|]. intros d' Hd. exact Hd.
    + intros [st1 d'] Hd. apply K, Hd.
  - apply (thus_bind _ _ (fun d' => d_midi d' = d_midi d)); [|intros d' Hd; apply K, Hd].
    unfold dev_chan_note_off. cbv zeta. apply thus_bind_any. intros _. reflexivity.
Qed.
Lemma note_off_maps c p s : maps_ok s -> thus (midi_note_off c p s) maps_ok.
Proof.
  intros H. unfold midi_note_off. apply thus_bind_any. intros m. apply thus_bind_any. intros [x st].
  apply thus_bind_any. intros [next st1]. cbv zeta. eapply thus_bind; [apply note_off_loop_like|]. intros [st2 devs] Hd.
  apply (like_table _ _ H Hd).
Qed.
Lemma start_maps s i c p v d : maps_ok s -> is_chan c -> thus (start_note s i c p v d) maps_ok.
Proof.
  intros H Hc. unfold start_note. apply thus_bind_any. intros _. cbv zeta. eapply thus_bind; [apply keeps_update|].
  intros d' Hd. apply thus_bind_any. intros _. apply table_zset; [exact H|]. rewrite Hd. left. exact Hc.
Qed.
Lemma note_on_maps c p v s : maps_ok s -> is_chan c -> thus (midi_note_on c p v s) maps_ok.
Proof.
  intros H Hc. unfold midi_note_on. destruct (v =? 0); [apply note_off_maps, H|]. destruct (tooManyPercussiveNotes s c); [exact H|].
  apply thus_bind_any. intros [i|]; [|exact H].
  apply (thus_bind _ _ (fun d => valid_map (d_midi d))).
  { unfold wget. destruct (zget (md_dev s) i) eqn:E; [|exact I]. destruct H as [_ H]. apply (H _ _ E). }
  intros d Hd. apply thus_bind_any. intros m. destruct (is_single_voice_channel s c false).
  - destruct (note_priority_isFull (m_np m)); [exact H|]. apply thus_bind_any. intros [x st]. cbv zeta.
    destruct (_ && _); [apply table_zset; assumption|apply start_maps; assumption].
  - apply start_maps; assumption.
Qed.

Lemma remap_maps a b s : maps_ok s -> 0 <= a -> thus (midi_remap_channel a b s) maps_ok.
Proof.
  intros H Ha. unfold midi_remap_channel, UNASSIGNED, MIDI_CHANNELS.
  destruct (negb (a =? 127) && (16 <=? a)) eqn:Ea; [exact H|]. destruct (b =? 127).
  - apply thus_bind_any. intros [i|]; [|exact H]. apply thus_bind_any. intros d. apply table_zset; [exact H|right; reflexivity].
  - destruct (DEV_CHANS <=? b); [exact H|]. apply thus_bind_any. intros d. apply table_zset; [exact H|].
    unfold valid_map, is_chan. cbn [d_midi d_set_midi]. lia.
Qed.
Lemma remap_all_maps is : forall s, maps_ok s -> thus (remap_all is s) maps_ok.
Proof.
  induction is as [|i t IH]; intros s H; cbn [remap_all]; [exact H|]. eapply thus_bind; [apply remap_maps; [exact H|lia]|apply IH].
Qed.
Lemma on_ch_maps c f s : maps_ok s -> thus (on_ch c f s) maps_ok.
Proof. intros H. unfold on_ch. apply thus_bind_any. intros m. exact H. Qed.
Lemma all_notes_off_maps c s : maps_ok s -> thus (all_notes_off c s) maps_ok.
Proof.
  intros H. unfold all_notes_off. eapply thus_bind; [apply for_with_like|].
  - intros d. cbv zeta. apply thus_bind_any. intros _. reflexivity.
  - intros l Hl. apply (like_table _ _ H Hl).
Qed.
Lemma all_channels_off_maps is : forall s, maps_ok s -> thus (all_channels_off is s) maps_ok.
Proof.
  induction is as [|i t IH]; intros s H; cbn [all_channels_off]; [exact H|]. eapply thus_bind; [apply all_notes_off_maps, H|apply IH].
Qed.
Lemma fm_loop_maps c k v is : forall s, maps_ok s -> thus (fm_parameter_loop c k v is s) maps_ok.
Proof.
  induction is as [|i t IH]; intros s H; cbn [fm_parameter_loop]; [exact H|]. apply thus_bind_any. intros d.
  apply (thus_bind _ _ maps_ok); [|apply IH]. destruct (d_midi d =? c); [|exact H]. unfold set_fm_chan_parameter.
  destruct (k =? 78).
  - destruct (md_nogm s); [exact H|]. unfold enable_dac.
    apply (thus_bind _ _ (fun d => valid_map (d_midi d))).
    { unfold wget. destruct (zget (md_dev s) 5) eqn:E; [|exact I]. destruct H as [_ H]. apply (H _ _ E). }
    intros d5 Hd5. cbv zeta. apply thus_bind_any. intros _. apply table_zset; assumption.
  - destruct (fm_parameter _ _ _ _); [|exact H]. destruct (md_nogm s); [exact H|]. apply thus_bind_any. intros _. exact H.
Qed.
Lemma cc_maps c k v s : maps_ok s -> thus (midi_cc c k v s) maps_ok.
Proof.
  intros H. unfold midi_cc. apply (thus_bind _ _ maps_ok); [|intros s' Hs'; apply thus_bind_any; intros _; exact Hs'].
  unfold cc_action. apply thus_bind_any. intros m0.
  destruct (k =? 5); [apply thus_bind_any; intros t; apply on_ch_maps, H|].
  destruct (k =? 7).
  { unfold channel_volume. apply thus_bind_any. intros m. cbv zeta. eapply thus_bind; [apply for_with_like, keeps_volume|].
    intros l Hl. apply (like_table _ _ H Hl). }
  destruct (k =? 10).
  { unfold channel_pan. apply thus_bind_any. intros m. cbv zeta. eapply thus_bind; [apply for_with_like, keeps_pan|].
    intros l Hl. apply (like_table _ _ H Hl). }
  destruct (_ || _); [apply all_notes_off_maps, H|].
  destruct (k =? 84).
  { unfold set_polyphonic_mode. cbv zeta. destruct (negb _); [apply remap_all_maps|]; apply set_dynamic_maps, H. }
  destruct (k =? 80); [apply thus_bind_any; intros _; exact H|].
  destruct (k =? 121).
  { unfold resetAllControllers. apply thus_bind_any. intros m. cbv zeta. eapply thus_bind; [apply init_devices_table; exact H|].
    intros l Hl. apply set_dynamic_maps. exact Hl. }
  destruct (k =? 83); [destruct (md_nogm s); [exact H|]; apply thus_bind_any; intros _; exact H|].
  destruct (k =? 86); [destruct (md_nogm s); [exact H|]; apply on_ch_maps, H|].
  destruct (k =? 65); [apply on_ch_maps, H|].
  destruct (k =? 85); [destruct (md_nogm s); [exact H|]; apply on_ch_maps, H|].
  assert (KR : forall b, thus (rpn_data_entry c v b s) maps_ok).
  { intros b. unfold rpn_data_entry. apply thus_bind_any. intros m. destruct (_ =? 0); [|exact H].
    unfold update_pb_range. apply thus_bind_any. intros m1. cbv zeta. eapply thus_bind; [apply for_with_like|].
    - intros d. destruct (negb _); [|reflexivity]. apply thus_bind_any. intros _. reflexivity.
    - intros l Hl. apply (like_table _ _ H Hl). }
  destruct (k =? 6); [apply KR|]. destruct (k =? 38); [apply KR|].
  destruct (k =? 101); [apply on_ch_maps, H|]. destruct (k =? 100); [apply on_ch_maps, H|].
  destruct (_ || _ || _ || _); [exact H|]. destruct (k =? 87); [apply thus_bind_any; intros _; exact H|].
  apply fm_loop_maps, H.
Qed.
Lemma portamento_like chs : forall l, thus (process_portamento chs l) (like l).
Proof.
  induction l as [|d t IH]; cbn [process_portamento]; [constructor|].
  apply (thus_bind _ _ (fun d' => d_midi d' = d_midi d)).
  - destruct (d_midi d =? UNASSIGNED); [reflexivity|]. apply thus_bind_any. intros m. destruct (_ && _); [|reflexivity].
    unfold process_channel_glide. destruct (_ || _); [reflexivity|]. cbv zeta. apply thus_bind_any. intros _. cbn [wret thus].
    destruct (_ || _); reflexivity.
  - intros d' Hd. apply (thus_bind _ _ _ _ IH). intros t' Ht. constructor; assumption.
Qed.
Lemma sysex_maps data s : maps_ok s -> Forall byte data -> thus (midi_sysex data s) maps_ok.
Proof.
  intros H Hb. destruct (midi_sysex data s) as [s' o|f] eqn:E; [|exact I]. apply midi_sysex_result in E. cbn [thus].
  destruct E as [|t s1 o1 Ed E|a b s1 Ed E|a Ed|a Ed|a Ed|a Ed|o1 _]; try exact H.
  - assert (K : thus (general_midi_reset s) maps_ok); [|rewrite E in K; exact K].
    unfold general_midi_reset. eapply thus_bind; [apply all_channels_off_maps, H|]. intros s2 H2. cbv zeta.
    apply reset_channels_maps. destruct (md_pref s2 =? 2); exact H2.
  - assert (Ha : 0 <= a).
    { rewrite Ed in Hb. do 4 apply Forall_inv_tail in Hb. apply Forall_inv in Hb. unfold byte in Hb. lia. }
    assert (K := remap_maps a b s H Ha). rewrite E in K. exact K.
  - apply set_dynamic_maps, H.
Qed.
Lemma step_maps op s : maps_ok s -> mop_bytes op -> thus (midi_step op s) maps_ok.
Proof.
  intros H Hop. destruct op as [c p v|c p|c k v|c p|c b|data| | |cb]; cbn [midi_step mop_bytes] in *.
  - apply note_on_maps; [exact H|apply Hop].
  - apply note_off_maps, H.
  - apply cc_maps, H.
  - unfold midi_program. apply thus_bind_any. intros m. cbv zeta. eapply thus_bind; [apply for_with_like, keeps_program|].
    intros l Hl. apply thus_bind_any. intros _. apply (like_table _ _ H Hl).
  - unfold midi_pitch_bend. apply thus_bind_any. intros m. cbv zeta. eapply thus_bind; [apply for_with_like|].
    + intros d. destruct (d_on d); [apply keeps_bend|reflexivity].
    + intros l Hl. apply (like_table _ _ H Hl).
  - apply sysex_maps; assumption.
  - unfold reset. do 3 (apply thus_bind_any; intros _). cbv zeta. apply reset_channels_maps. exact H.
  - unfold midi_tick. eapply thus_bind; [apply portamento_like|]. intros l Hl. apply (like_table _ _ H Hl).
  - exact H.
Qed.
Lemma run_maps ops : forall s, maps_ok s -> Forall mop_bytes ops -> thus (midi_run ops s) maps_ok.
Proof.
  induction ops as [|op t IH]; intros s H HF; cbn [midi_run]; [exact H|]. inversion HF; subst.
  eapply thus_bind; [apply step_maps; eassumption|]. intros s' Hs'. apply IH; assumption.
Qed.
Lemma boot_maps ops s o : Forall mop_bytes ops -> midi_boot ops = WDone s o -> maps_ok s.
Proof.
  intros HF E. rewrite midi_boot_eq in E. assert (K := run_maps ops booted).
  apply wbind_inv in E as (s0 & o1 & o2 & E0 & E & _). apply WDone_inj in E0 as [<- _]. rewrite E in K.
  apply K; [|exact HF]. assert (B := booted_ok). split; [apply B|]. intros i d Hd. destruct B as (_ & _ & B & _).
  apply (B i d Hd).
Qed.
Lemma remap_msg a b s : midi_step (own_sysex 0 [a; b]) s = midi_remap_channel a b s.
Proof.
  transitivity (wbind (wret 0) (fun _ => wbind (wret a) (fun a => wbind (wret b) (fun b => midi_remap_channel a b s)))); [reflexivity|].
  rewrite !wbind_ret. reflexivity.
Qed.
(** Requests naming a channel that does not exist. *)
Lemma bad_remap a b s : byte a -> byte b -> ~ (valid_map a /\ (0 <= b < 13 \/ b = 0x7F)) ->
  steps s (own_sysex 0 [a; b]) s [].
Proof.
  intros Ha Hb Hn. unfold byte in *. unfold steps. rewrite remap_msg.
  unfold midi_remap_channel, UNASSIGNED, MIDI_CHANNELS, DEV_CHANS.
  destruct (negb (a =? 127) && (16 <=? a)) eqn:Ea; [reflexivity|]. unfold valid_map, is_chan in Hn.
  destruct (Z.eqb_spec b 127); [lia|]. destruct (Z.leb_spec 13 b); [reflexivity|lia].
Qed.
(** Requests naming existing ones. *)
Lemma good_remap a b s : length (md_dev s) = 13%nat -> valid_map a -> 0 <= b < 13 ->
  exists d, dev_at s b d /\ steps s (own_sysex 0 [a; b]) (md_set_dev s (zset (md_dev s) b (d_set_midi d a))) [].
Proof.
  intros Hl Ha Hb. destruct (zget_in_range (md_dev s) b) as [d Hd]; [lia|]. exists d. split; [exact Hd|].
  unfold steps. rewrite remap_msg.
  unfold midi_remap_channel, UNASSIGNED, MIDI_CHANNELS, DEV_CHANS. unfold valid_map, is_chan in Ha.
  destruct (negb (a =? 127) && (16 <=? a)) eqn:Ea; [lia|].
  destruct (Z.eqb_spec b 127); [lia|]. destruct (Z.leb_spec 13 b); [lia|]. rewrite (wget_Some _ _ _ Hd). reflexivity.
Qed.
