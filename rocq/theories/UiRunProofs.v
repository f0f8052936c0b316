(** The screen over a frame, over callbacks and at the start. *)
From Coq Require Import String Ascii.
From Verif Require Import Base BaseLemmas SynthModel MidiModel MidiSpec DevModel AppModel CommModel UiModel UiSpec UiProofs UiPanelProofs.

(** Everything drawn once and for all. *)
Definition label_cells : list (list Z * Z * Z) :=
  map (fun i => ([48 + (if i <? 6 then i + 1 else i - 5)], 2, row_y i)) (zseq 0 10) ++
  [(str "MDMI", 1, 1); (str "%", 1, 26);
   ([1000 + TILE_ROUTING; 1000 + TILE_ROUTING + 1], 1, 23); ([1000 + TILE_ROUTING + 2; 1000 + TILE_ROUTING + 3], 1, 24)].
Definition labels (scr : Z -> Z -> Z) : Prop := Forall (fun h : list Z * Z * Z => text_at scr (fst (fst h)) (snd (fst h)) (snd h)) label_cells.
Lemma label_region : Forall (fun h : list Z * Z * Z => Forall (fun k => region (snd (fst h) + k) (snd h) = 0) (zseq 0 (List.length (fst (fst h))))) label_cells.
Proof. repeat constructor. Qed.
Lemma labels_kept l a b : only l a b -> ~ In 0 l -> labels a -> labels b.
Proof.
  intros H N Hh. unfold labels in *. assert (B := label_region). rewrite Forall_forall in *. intros h Hi k c Hk.
  specialize (B h Hi). rewrite Forall_forall in B. rewrite H; [apply (Hh h Hi), Hk|].
  rewrite (B k); [exact N|]. apply in_zseq0. eapply zget_Some; eassumption.
Qed.

Definition ui_inv (u : ui) : Prop :=
  inv_notes u /\ inv_changes u /\ inv_mode u /\ inv_mark u /\ panel_inv u /\ labels (u_scr u) /\
  u_icon u = u_dyn u /\ 0 <= u_logy u <= 2 /\ 0 <= u_act u < 5 /\ 0 <= q_midi (u_panel u) < 16.

Lemma inv_step l u u' : ui_inv u -> only l (u_scr u) (u_scr u') -> ~ In 0 l ->
  inv_notes u' \/ (~ In NOTES l /\ u_pitches u' = u_pitches u) ->
  inv_changes u' \/ (~ In CHANGES l /\ u_changes u' = u_changes u) ->
  inv_mode u' \/ (~ In TRANSPORT l /\ u_inited u' = u_inited u /\ u_mode u' = u_mode u) ->
  inv_mark u' \/ (~ In MARK l /\ u_ch3 u' = u_ch3 u) ->
  panel_inv u' /\ 0 <= q_midi (u_panel u') < 16 \/ (~ In PANEL l /\ u_panel u' = u_panel u) ->
  u_icon u' = u_dyn u' -> 0 <= u_logy u' <= 2 -> 0 <= u_act u' < 5 -> ui_inv u'.
Proof.
  intros (A & B & C & D & F & G & _ & _ & _ & Q) O N HA HB HC HD HF HI HL HT.
  split; [destruct HA as [|(? & ?)]; [assumption|eapply inv_notes_kept; eassumption]|].
  split; [destruct HB as [|(? & ?)]; [assumption|eapply inv_changes_kept; eassumption]|].
  split; [destruct HC as [|(? & ? & ?)]; [assumption|eapply inv_mode_kept; eassumption]|].
  split; [destruct HD as [|(? & ?)]; [assumption|eapply inv_mark_kept; eassumption]|].
  split; [destruct HF as [(? & ?)|(? & ?)]; [assumption|eapply panel_inv_kept; eassumption]|].
  split; [eapply labels_kept; eassumption|]. split; [exact HI|]. split; [exact HL|]. split; [exact HT|].
  destruct HF as [(_ & ?)|(_ & ->)]; assumption.
Qed.
Ltac not_in := cbn; unfold NOTES, CHANGES, TRANSPORT, MARK, PANEL, ATTACHED, LAMPS, MAPS, LOGS, GAP; lia.
Ltac kept S := first [left; assumption | right; repeat split; first [not_in | rewrite S; reflexivity]].

Ltac kept_refl := right; repeat split; first [not_in | reflexivity].

(** ** A frame *)
Definition sounding (m : midi) : list Z := map (fun d => if d_on d then d_pitch d else 0) (physical m).
Definition mapped (m : midi) : list Z := map d_midi (physical m).
(** A sounding device whose pitch is no MIDI key. *)
Definition off_keyboard (m : midi) : Prop := exists i d, 0 <= i < 10 /\ dev_at m i d /\ d_on d = true /\ 127 < d_pitch d.

Lemma zget_firstn {A} (l : list A) n i x : zget (firstn n l) i = Some x <-> zget l i = Some x /\ i < Z.of_nat n.
Proof.
  unfold zget. destruct (Z.ltb_spec i 0) as [H|H]; [split; [discriminate|intros [? ?]; discriminate]|].
  replace i with (Z.of_nat (Z.to_nat i)) at 3 by lia. generalize (Z.to_nat i) as k. clear.
  revert n. induction l as [|a l IH]; intros [|n] [|k]; cbn; try (split; [discriminate|intros [? ?]; try discriminate; lia]).
  - split; [intros E; split; [exact E|lia]|tauto].
  - rewrite IH. split; intros [? ?]; split; auto; lia.
Qed.
Lemma physical_len m : midi_ok m -> List.length (physical m) = 10%nat.
Proof. intros (L & _). unfold physical. rewrite firstn_length, L. reflexivity. Qed.
Lemma physical_get m i d : zget (physical m) i = Some d <-> dev_at m i d /\ i < 10.
Proof. unfold physical, dev_at. apply zget_firstn. Qed.

Definition frame_post (m : midi) (s : synth) (delta mode : Z) (c : comm) (log : option (list Z)) (u u' : ui) : Prop :=
  ui_inv u' /\ (fresh s u -> fresh s u') /\ (att u u' /\ lamp_post delta c u u') /\
  u_pitches u' = sounding m /\ u_changes u' = map tick (u_changes u) /\
  (q_show (u_panel u') = q_show (u_panel u) /\ q_midi (u_panel u') = q_midi (u_panel u) /\
   let chan := get_fm_chan_for_midi_chan (firstn 6 (md_dev m)) (q_midi (u_panel u)) in
   (q_show (u_panel u) = true -> chan <> UNKNOWN_FM_CHANNEL -> q_fm (u_panel u') = chan /\ q_dirty (u_panel u') = false)) /\
  if 5 <=? u_act u + delta then
    u_act u' = 0 /\ u_dyn u' = md_dyn m /\ u_ch3 u' = s_special s /\ u_mode u' = (if u_inited u then u_mode u else mode) /\
    (forallb (Z.eqb 0) (mapped m) = false -> map_cells (u_scr u') (mapped m)) /\
    match log with
    | None => u_logy u' = u_logy u /\ only [MAPS; NOTES; CHANGES; MARK; LAMPS; TRANSPORT; ATTACHED; PANEL] (u_scr u) (u_scr u')
    | Some msg => text_at (u_scr u') msg 4 (log_row u') /\ u_logy u' = (if 2 <=? u_logy u then 1 else u_logy u + 1) /\
        (u_logy u = 1 -> forall x, 4 <= x -> u_scr u' x 23 = u_scr u x 23)
    end
  else u_act u' = u_act u + delta /\ u_dyn u' = u_dyn u /\ u_ch3 u' = u_ch3 u /\ u_mode u' = u_mode u /\ u_logy u' = u_logy u /\
    only [NOTES; CHANGES; LAMPS; PANEL] (u_scr u) (u_scr u').

Lemma log_row_range u : 0 < u_logy u <= 2 -> 23 <= log_row u <= 24. Proof. unfold log_row. lia. Qed.
Lemma update_wp m s delta mode c log u :
  ui_inv u -> midi_ok m -> (forall n ch, zget (s_chans s) n = Some ch -> drawable s ch) -> List.length (s_chans s) = 6%nat ->
  1 <= delta < 65000 ->
  wp (update m s delta mode c log) u (fun _ u' => frame_post m s delta mode c log u u') (off_keyboard m).
Proof.
  intros I Mo Dr Lc Hd. unfold update.
  assert (I0 := I). destruct I0 as (In0 & Ic0 & Im0 & Ik0 & Ip0 & Il0 & Ii0 & Ig0 & Ia0 & Iq0).
  assert (Lp := physical_len m Mo).
  (* notes *)
  apply wp_bind. eapply wp_weaken; [apply (activity_wp (sounding m) (off_keyboard m) u In0)| |exact (fun e => e)].
  { unfold sounding. rewrite map_length. exact Lp. }
  { intros i p Hp. unfold sounding in Hp. rewrite zget_map in Hp. destruct (zget (physical m) i) as [d|] eqn:Ed; [|discriminate].
    apply physical_get in Ed. destruct Ed as (Ed & Hi). assert (Hi0 := zget_Some _ _ _ Ed).
    destruct Mo as (_ & _ & Md & _). destruct (Md i d Ed) as (_ & _ & _ & Rp & _). injection Hp as <-. split; [destruct (d_on d); lia|].
    intros H. exists i, d. destruct (d_on d) eqn:On; [|lia]. split; [lia|]. auto. }
  intros [] u1 (P1 & N1 & S1 & O1). apply wp_bind.
  assert (I1 : ui_inv u1).
  { apply (inv_step [NOTES] u u1 I O1); [not_in|left; exact N1|kept S1..|rewrite S1; exact Ii0|rewrite S1; exact Ig0|rewrite S1; exact Ia0]. }
  assert (Q1 : u_panel u1 = u_panel u) by (rewrite S1; reflexivity). assert (C1 : u_changes u1 = u_changes u) by (rewrite S1; reflexivity).
  (* changes *)
  eapply wp_weaken; [apply (changes_wp (off_keyboard m) u1 (proj1 (proj2 I1)))| |exact (fun e => e)].
  intros [] u2 (P2 & N2 & S2 & O2). apply wp_bind. apply wp_modify. apply wp_bind, wp_get. apply wp_bind.
  assert (I2 : ui_inv u2).
  { apply (inv_step [CHANGES] u1 u2 I1 O2); [not_in|kept S2|left; exact N2|kept S2..|rewrite S2; apply I1|rewrite S2; apply I1|rewrite S2; apply I1]. }
  assert (A2 : u_act u2 = u_act u) by (rewrite S2, S1; reflexivity).
  set (a := u_act u + delta) in *. assert (Ra : u16 (u_act u2 + delta) = a). { rewrite A2. unfold u16. rewrite Z.mod_small; unfold a; lia. }
  cbn [u_act set_act]. rewrite Ra.
  set (u3 := set_act u2 a) in *.
  assert (O02 : only [NOTES; CHANGES] (u_scr u) (u_scr u2)).
  { eapply only_trans; (eapply only_sub; [eassumption|]); intros x [<-|[]]; cbn; auto. }
  (* the refresh *)
  eapply (wp_weaken _ _ (fun _ u4 => ui_inv u4 /\ (att u u4 /\ u_meter u4 = u_meter u /\ lamps_same (u_scr u) (u_scr u4)) /\ u_panel u4 = u_panel u /\ u_pitches u4 = sounding m /\ u_changes u4 = map tick (u_changes u) /\
    if 5 <=? a then
      u_act u4 = 0 /\ u_dyn u4 = md_dyn m /\ u_ch3 u4 = s_special s /\ u_mode u4 = (if u_inited u then u_mode u else mode) /\
      (forallb (Z.eqb 0) (mapped m) = false -> map_cells (u_scr u4) (mapped m)) /\
      match log with
      | None => u_logy u4 = u_logy u /\ only [MAPS; NOTES; CHANGES; MARK; LAMPS; TRANSPORT; ATTACHED; PANEL] (u_scr u) (u_scr u4)
      | Some msg => text_at (u_scr u4) msg 4 (log_row u4) /\ u_logy u4 = (if 2 <=? u_logy u then 1 else u_logy u + 1) /\
          (u_logy u = 1 -> forall x, 4 <= x -> u_scr u4 x 23 = u_scr u x 23)
      end
    else u_act u4 = a /\ u_dyn u4 = u_dyn u /\ u_ch3 u4 = u_ch3 u /\ u_mode u4 = u_mode u /\ u_logy u4 = u_logy u /\
      only [NOTES; CHANGES; LAMPS; PANEL] (u_scr u) (u_scr u4)) _ (off_keyboard m)).
  { unfold when, FRAMES_BEFORE_UPDATE_ACTIVITY. destruct (Z.leb_spec 5 a) as [Ha|Ha].
    2: { apply wp_ret. split.
      - apply (inv_step [] u2 u3 I2); [apply only_refl|not_in|kept_refl..| | |].
        + apply I2.
        + apply I2.
        + cbn. unfold a in *. lia.
      - split; [split; [eapply att_only; [cbn; rewrite S2, S1; reflexivity|exact O02|not_in]|]; split; [cbn; rewrite S2, S1; reflexivity|eapply lamps_kept; [exact O02|not_in]]|]. cbn. rewrite P2, C1, S2, S1. cbn. repeat (split; [reflexivity|]). eapply only_sub; [exact O02|].
        intros x [<-|[<-|[]]]; cbn; auto. }
    apply wp_bind. apply wp_modify. set (u4 := set_act u3 0).
    assert (I4 : ui_inv u4).
    { apply (inv_step [] u2 u4 I2); [apply only_refl|not_in|kept_refl..| | |].
      + apply I2.
      + apply I2.
      + cbn. lia. }
    apply wp_bind. unfold print_mappings. fold (mapped m).
    eapply wp_weaken; [apply (mappings_wp (off_keyboard m) (mapped m) u4)| |exact (fun e => e)].
    { unfold mapped. rewrite map_length. exact Lp. }
    { intros i x Hx. unfold mapped in Hx. rewrite zget_map in Hx. destruct (zget (physical m) i) as [d|] eqn:Ed; [|discriminate]. injection Hx as <-.
      apply physical_get in Ed. destruct Ed as (Ed & _). destruct Mo as (_ & _ & Md & _). destruct (Md i d Ed) as (_ & V & _).
      unfold valid_map, is_chan, UNASSIGNED in *. lia. }
    intros [] u5 (S5 & O5 & M5). apply wp_bind.
    assert (I5 : ui_inv u5).
    { apply (inv_step [MAPS] u4 u5 I4 O5); [not_in|kept S5..|rewrite S5; apply I4|rewrite S5; apply I4|rewrite S5; apply I4]. }
    assert (Lm : List.length (mapped m) = 10%nat) by (unfold mapped; rewrite map_length; exact Lp).
    eapply wp_weaken; [apply (comm_wp (off_keyboard m) mode u5)| |exact (fun e => e)].
    { intros _ _. apply I5. } { intros _. apply I5. }
    intros [] u6 (N6 & M6 & S6 & O6 & At6). apply wp_bind.
    assert (I6 : ui_inv u6).
    { apply (inv_step [TRANSPORT; ATTACHED] u5 u6 I5 O6); [not_in|kept S6..|rewrite S6; apply I5|rewrite S6; apply I5|rewrite S6; apply I5]. }
    eapply wp_weaken; [apply (log_wp (off_keyboard m) log u6); apply I6| |exact (fun e => e)].
    intros [] u7 (R7 & S7 & O7 & L7). apply wp_bind.
    assert (I7 : ui_inv u7).
    { apply (inv_step [LOGS; GAP] u6 u7 I6 O7); [not_in|kept S7..|rewrite S7; apply I6|exact R7|rewrite S7; apply I6]. }
    eapply wp_weaken; [apply (routing_wp (off_keyboard m) (md_dyn m) u7); apply I7| |exact (fun e => e)].
    intros [] u8' S8. apply wp_bind, wp_get.
    assert (I8 : ui_inv u8').
    { apply (inv_step [] u7 u8' I7); [rewrite S8; apply only_refl|not_in|kept S8..|rewrite S8; reflexivity|rewrite S8; apply I7|rewrite S8; apply I7]. }
    eapply wp_weaken; [apply (mark_wp (off_keyboard m) (s_special s) u8'); apply I8| |exact (fun e => e)].
    intros [] u9 (N9 & S9 & O9).
    assert (I9 : ui_inv u9).
    { apply (inv_step [MARK] u8' u9 I8 O9); [not_in|kept S9..|rewrite S9; apply I8|rewrite S9; apply I8|rewrite S9; apply I8]. }
    assert (X8 : u_scr u8' = u_scr u7) by (rewrite S8; reflexivity). rewrite X8 in O9.
    assert (E57 : only [TRANSPORT; ATTACHED; LOGS; GAP; MARK] (u_scr u5) (u_scr u9)).
    { eapply only_trans; [eapply only_sub; [exact O6|]|eapply only_trans; [eapply only_sub; [exact O7|]|eapply only_sub; [exact O9|]]];
        intros x Hx; cbn in *; tauto. }
    split; [exact I9|]. split.
    { assert (O05 : only [NOTES; CHANGES; MAPS] (u_scr u) (u_scr u5)).
      { eapply only_trans; [eapply only_sub; [exact O02|]|eapply only_sub; [exact O5|]]; intros x Hx; cbn in *; tauto. }
      split; [|split; [rewrite S9, S8, S7, S6, S5; cbn; rewrite S2, S1; reflexivity|]].
      2: { intros k Hk. rewrite (lamps_kept _ _ _ E57 ltac:(not_in) k Hk). apply (lamps_kept _ _ _ O05 ltac:(not_in) k Hk). }
      eapply att_trans; [eapply (att_only [NOTES; CHANGES; MAPS] u u5); [rewrite S5; cbn; rewrite S2, S1; reflexivity| |not_in]|].
      - eapply only_trans; [eapply only_sub; [exact O02|]|eapply only_sub; [exact O5|]]; intros x Hx; cbn in *; tauto.
      - eapply att_trans; [exact At6|]. eapply (att_only [LOGS; GAP; MARK]); [rewrite S9, S8, S7; reflexivity| |not_in].
        eapply only_trans; [eapply only_sub; [exact O7|]|eapply only_sub; [exact O9|]]; intros x Hx; cbn in *; tauto. }
    split; [rewrite S9, S8, S7, S6, S5; cbn; rewrite S2; cbn; exact Q1|].
    split; [rewrite S9, S8, S7, S6, S5; cbn; rewrite S2; cbn; exact P1|].
    split; [rewrite S9, S8, S7, S6, S5; cbn; rewrite P2, C1; reflexivity|].
    split; [rewrite S9, S8, S7, S6, S5; reflexivity|]. split; [rewrite S9, S8; reflexivity|]. split; [rewrite S9; reflexivity|].
    split.
    { rewrite S9, S8, S7. cbn. rewrite M6, S5. cbn. rewrite S2, S1. reflexivity. }
    split; [intros Ef; eapply map_kept; [exact Lm|exact E57|not_in|apply M5, Ef]|].
    assert (Y6 : u_logy u6 = u_logy u) by (rewrite S6, S5; cbn; rewrite S2, S1; reflexivity). rewrite Y6 in L7.
    assert (Y9 : u_logy u9 = u_logy u7) by (rewrite S9, S8; reflexivity).
    assert (O06 : only [MAPS; NOTES; CHANGES; MARK; LAMPS; TRANSPORT; ATTACHED; PANEL] (u_scr u) (u_scr u6)).
    { eapply only_trans; [eapply only_sub; [exact O02|]|eapply only_trans; [eapply only_sub; [exact O5|]|eapply only_sub; [exact O6|]]];
        intros x Hx; cbn in *; tauto. }
    destruct log as [msg|].
    - destruct L7 as (L7 & T7 & K7 & _). rewrite Y9. split; [|split; [exact L7|]].
      + unfold log_row. rewrite Y9. eapply text_kept; [exact O9| |exact T7].
        intros k Hk. fold (log_row u7). rewrite region_logs; [not_in| |lia]. assert (u_logy u = u_logy u) by reflexivity.
        apply log_row_range. rewrite L7. destruct (Z.leb_spec 2 (u_logy u)); lia.
      + intros H1 x Hx. rewrite O9 by (rewrite region_logs by lia; not_in). rewrite K7 by exact H1.
        apply O06. rewrite region_logs by lia. not_in.
    - subst u7. rewrite Y9. split; [exact Y6|]. eapply only_trans; [exact O06|]. eapply only_sub; [exact O9|]. intros x Hx; cbn in *; tauto. }
  2: exact (fun e => e).
  intros [] u4 (I4 & (T4 & Me4 & La4) & Q4 & P4 & C4 & Z4). apply wp_bind.
  eapply wp_weaken; [apply (load_wp (off_keyboard m) delta c u4 Hd)| |exact (fun e => e)].
  intros [] u5 (S5 & O5 & La5).
  assert (I5 : ui_inv u5).
  { apply (inv_step [LAMPS] u4 u5 I4 O5); [not_in|kept S5..|rewrite S5; apply I4|rewrite S5; apply I4|rewrite S5; apply I4]. }
  assert (Q5 : u_panel u5 = u_panel u) by (rewrite S5; exact Q4).
  eapply wp_weaken; [apply (fm_wp (off_keyboard m) m s u5)| |exact (fun e => e)].
  { apply I5. } { exact Dr. } { exact Lc. } { rewrite Q5. lia. }
  { intros i d Hi. apply zget_firstn in Hi. destruct Hi as (Hi & Hi6). destruct Mo as (_ & _ & Md & _).
    destruct (Md i d Hi) as ((Sh & _) & _). assert (R := zget_Some _ _ _ Hi). destruct Sh as (-> & _); lia. }
  intros [] u6 (P6 & F6 & S6 & O6 & Qs & Qm & Qc). rewrite Q5 in *.
  assert (I6 : ui_inv u6).
  { apply (inv_step [PANEL] u5 u6 I5 O6); [not_in|kept S6|kept S6|kept S6|kept S6| |rewrite S6; apply I5|rewrite S6; apply I5|rewrite S6; apply I5].
    left. split; [exact P6|]. rewrite Qm. exact Iq0. }
  assert (O46 : only [LAMPS; PANEL] (u_scr u4) (u_scr u6)).
  { eapply only_trans; (eapply only_sub; [eassumption|]); intros x [<-|[]]; cbn; auto. }
  split; [exact I6|]. split; [intros F; apply F6; unfold fresh; rewrite Q5; exact F|].
  split.
  { split; [eapply att_trans; [exact T4|]; eapply att_only; [rewrite S6, S5; reflexivity|exact O46|not_in]|].
    assert (La6 := lamps_kept _ _ _ O6 ltac:(not_in)). assert (Me6 : u_meter u6 = u_meter u5) by (rewrite S6; reflexivity).
    intros b Eb Hb. rewrite <- Me4 in Eb. specialize (La5 b Eb Hb). rewrite Me6. destruct (15 <=? b + delta); destruct La5 as [L1 L2]; (split; [exact L1|]).
    - intros H1 H2 k Hk. rewrite (La6 k Hk). apply L2; assumption.
    - intros k Hk. rewrite (La6 k Hk), (L2 k Hk). apply La4, Hk. }
  split; [rewrite S6, S5; exact P4|]. split; [rewrite S6, S5; exact C4|].
  split; [split; [exact Qs|]; split; [exact Qm|exact Qc]|].
  fold a. destruct (5 <=? a).
  - destruct Z4 as (Z1 & Z2 & Z3 & Z5 & Z6 & Z7). split; [rewrite S6, S5; exact Z1|]. split; [rewrite S6, S5; exact Z2|].
    split; [rewrite S6, S5; exact Z3|]. split; [rewrite S6, S5; exact Z5|]. split.
    + intros Ef. eapply map_kept; [|exact O46|not_in|apply Z6, Ef]. unfold mapped. rewrite map_length. exact Lp.
    + assert (Y : u_logy u6 = u_logy u4) by (rewrite S6, S5; reflexivity). destruct log as [msg|].
      * destruct Z7 as (T & L & K). split; [|split].
        -- unfold log_row. rewrite Y. eapply text_kept; [exact O46| |exact T]. intros k Hk.
           fold (log_row u4). rewrite region_logs; [not_in| |lia]. apply log_row_range. rewrite L. destruct (Z.leb_spec 2 (u_logy u)); lia.
        -- rewrite Y. exact L.
        -- intros H1 x Hx. rewrite O46 by (rewrite region_logs by lia; not_in). apply K; assumption.
      * destruct Z7 as (L & O). split; [rewrite Y; exact L|]. eapply only_trans; [exact O|]. eapply only_sub; [exact O46|]. intros x Hx; cbn in *; tauto.
  - destruct Z4 as (Z1 & Z2 & Z3 & Z5 & Z6 & Z7). split; [rewrite S6, S5; exact Z1|]. split; [rewrite S6, S5; exact Z2|].
    split; [rewrite S6, S5; exact Z3|]. split; [rewrite S6, S5; exact Z5|]. split; [rewrite S6, S5; exact Z6|].
    eapply only_trans; [exact Z7|]. eapply only_sub; [exact O46|]. intros x Hx; cbn in *; tauto.
Qed.

(** ** Callbacks *)
Definition ev_ok (e : event) : Prop :=
  match e with EvUi c _ => 0 <= c < 16 | EvMidiChange k _ _ _ => k = 1 \/ k = 2 | _ => True end.
(** Events that make the panel redraw channel [n]. *)
Definition stirs (n : Z) (e : event) : Prop :=
  match e with EvParam c k => c = n \/ k = 1 | EvUi _ _ => True | _ => False end.
Definition sel_step (a : option Z) (e : event) : option Z := match e with EvUi c b => if b =? 0 then None else Some c | _ => a end.
Definition sel (u : ui) : option Z := if q_show (u_panel u) then Some (q_midi (u_panel u)) else None.
Definition chg_step (m : midi) (l : list change) (e : event) : list change :=
  match e with
  | EvMidiChange k c key v =>
      map (fun p : dev * change => if d_midi (fst p) =? c then mkChange k key v UI_CHANGE_TTL else snd p) (combine (physical m) l)
  | _ => l
  end.
Definition calls_post (m : midi) (o : list event) (u u' : ui) : Prop :=
  ui_inv u' /\ q_fm (u_panel u') = q_fm (u_panel u) /\ sel u' = fold_left sel_step o (sel u) /\
  (q_dirty (u_panel u') = false -> u_panel u' = u_panel u /\ Forall (fun e => ~ stirs (q_fm (u_panel u)) e) o) /\
  u_changes u' = fold_left (chg_step m) o (u_changes u) /\
  u' = set_panel (set_changes (set_scr u (u_scr u')) (u_changes u')) (u_panel u') /\ only [PANEL; GAP] (u_scr u) (u_scr u').

Lemma panel_dirty u d : panel_inv u -> (q_dirty (u_panel u) = true -> d = true) -> panel_inv (set_panel u (q_set_dirty (u_panel u) d)).
Proof.
  intros (A & B & C & D & F) Hd. unfold panel_inv. cbn. split; [exact A|]. split; [intros X; apply Hd, B, X|]. split; [exact C|]. split; [exact D|exact F].
Qed.
Lemma zget_combine {A B} (a : list A) : forall (b : list B) i, zget (combine a b) i =
  match zget a i, zget b i with Some x, Some y => Some (x, y) | _, _ => None end.
Proof.
  intros b i. unfold zget. destruct (i <? 0); [reflexivity|]. generalize (Z.to_nat i) as n. revert b.
  induction a as [|x a IH]; intros [|y b] [|n]; cbn; try reflexivity.
  - destruct (nth_error a n); reflexivity.
  - apply IH.
Qed.

Lemma event_wp (E : Prop) m e u : ui_inv u -> midi_ok m -> ev_ok e -> wp (ui_event m e) u (fun _ u' => calls_post m [e] u u') E.
Proof.
  intros I Mo Ev. assert (I0 := I). destruct I0 as (In0 & Ic0 & Im0 & Ik0 & Ip0 & Il0 & Ii0 & Ig0 & Ia0 & Iq0).
  assert (Same : (forall n, ~ stirs n e) -> sel_step (sel u) e = sel u -> chg_step m (u_changes u) e = u_changes u -> calls_post m [e] u u).
  { intros N1 N2 N3. split; [exact I|]. split; [reflexivity|]. split; [symmetry; exact N2|]. split; [|split; [symmetry; exact N3|split; [destruct u; reflexivity|apply only_refl]]].
    intros _. split; [reflexivity|]. constructor; [apply N1|constructor]. }
  destruct e; cbn [ui_event]; try (apply wp_ret, Same; [intros n []|reflexivity|reflexivity]).
  - (* a parameter *)
    unfold synth_parameter_updated. apply wp_bind, wp_get. unfold when.
    destruct ((chan =? q_fm (u_panel u)) || (kind =? 1)) eqn:Eb.
    + apply wp_modify. split.
      { apply (inv_step [] u); [exact I|apply only_refl|not_in|kept_refl|kept_refl|kept_refl|kept_refl| |exact Ii0|exact Ig0|exact Ia0].
        left. split; [apply panel_dirty; [exact Ip0|reflexivity]|exact Iq0]. }
      split; [reflexivity|]. split; [reflexivity|]. split; [discriminate|]. split; [reflexivity|]. split; [destruct u; reflexivity|apply only_refl].
    + apply wp_ret. split; [exact I|]. split; [reflexivity|]. split; [reflexivity|]. split; [|split; [reflexivity|split; [destruct u; reflexivity|apply only_refl]]].
      intros _. split; [reflexivity|]. constructor; [|constructor]. cbn. lia.
  - (* a change *)
    unfold midi_change_callback. apply wp_modify. cbn in Ev. split.
    { apply (inv_step [] u); [exact I|apply only_refl|not_in|kept_refl| |kept_refl|kept_refl|kept_refl|exact Ii0|exact Ig0|exact Ia0].
      left. destruct Ic0 as (L & C). split.
      - cbn [u_changes set_changes]. rewrite map_length, combine_length, (physical_len m Mo), L. reflexivity.
      - cbn [u_changes set_changes u_scr]. intros i x Hx. rewrite zget_map, zget_combine in Hx. destruct (zget (physical m) i) as [d|]; [|discriminate].
        destruct (zget (u_changes u) i) as [y|] eqn:Ey; [|discriminate]. cbn [fst snd] in Hx. injection Hx as <-.
        destruct (d_midi d =? chan); [|apply C; exact Ey]. unfold change_cells. cbn. unfold UI_CHANGE_TTL. split; [lia|]. split; [auto|].
        split; [lia|]. intros; lia. }
    split; [reflexivity|]. split; [reflexivity|]. split; [|split; [reflexivity|split; [destruct u; reflexivity|apply only_refl]]].
    intros _. split; [reflexivity|]. constructor; [intros []|constructor].
  - (* show or hide *)
    unfold ui_fm_set_parameters_visibility. apply wp_bind. apply wp_modify. apply wp_bind. cbn in Ev.
    destruct Ip0 as (A & B & C & D & F). destruct (Z.eqb_spec value 0) as [E0|N0]; cbn [negb].
    + apply wp_bind. apply wp_modify. apply wp_modify. apply wp_modify. subst value.
      match goal with |- calls_post _ _ _ ?x => set (u' := x) end.
      assert (O : only [PANEL; GAP] (u_scr u) (u_scr u')).
      { intros x y Hn. apply (wiped_other (u_scr u)). apply Bool.not_true_is_false. intros Er. apply Hn.
        unfold in_rect, FM_HEADING_X, BASE_Y, MAX_X in Er. destruct (Z.eq_dec y 22) as [->|Ny].
        - right; left. symmetry. apply region_gap. lia.
        - left. symmetry. region_tac. decide_all. }
      split.
      { apply (inv_step [PANEL; GAP] u u' I O); [not_in|kept_refl|kept_refl|kept_refl|kept_refl| |exact Ii0|exact Ig0|exact Ia0].
        left. split; [|exact Ev]. unfold panel_inv. cbn. destruct A as (A1 & A2 & A3 & A4).
        split; [split; [exact A1|]; split; [exact A2|]; split; [rewrite map_length; exact A3|exact A4]|].
        split; [reflexivity|]. split; [|split; discriminate]. intros _. split.
        - intros x y R. unfold u'. cbn. unfold FM_HEADING_X, BASE_Y, MAX_X. replace (in_rect 18 (1 + 2) 39 20 x y) with true; [reflexivity|].
          symmetry. unfold in_rect. region_tac. revert R. decide_all.
        - intros k Hk. apply all_false_zget. lia. }
      split; [reflexivity|]. split; [reflexivity|]. split; [discriminate|]. split; [reflexivity|]. split; [reflexivity|exact O].
    + apply wp_bind. apply wp_modify. unfold wp. rewrite headings_eq. 
      change (calls_post m [EvUi kind value] u (set_panel (set_scr u (heads_scr (u_scr u))) (q_set_dirty (q_set_force (q_set_shown (u_panel u) true kind) true) true))).
      match goal with |- calls_post _ _ _ ?x => set (u' := x) end.
      assert (O : only [PANEL; GAP] (u_scr u) (u_scr u')).
      { eapply only_sub; [apply heads_place|]. intros x [<-|[]]. left. reflexivity. }
      split.
      { apply (inv_step [PANEL; GAP] u u' I O); [not_in|kept_refl|kept_refl|kept_refl|kept_refl| |exact Ii0|exact Ig0|exact Ia0].
        left. split; [|exact Ev]. unfold panel_inv. cbn. split; [exact A|]. split; [reflexivity|]. split; [discriminate|]. split; [|discriminate].
        intros _. apply heads_drawn. }
      split; [reflexivity|]. split; [cbn; replace (value =? 0) with false by lia; reflexivity|]. split; [discriminate|]. split; [reflexivity|]. split; [reflexivity|exact O].
Qed.

Lemma calls_trans m a b u u1 u2 : calls_post m a u u1 -> calls_post m b u1 u2 -> calls_post m (a ++ b) u u2.
Proof.
  intros (I1 & F1 & S1 & D1 & C1 & E1 & O1) (I2 & F2 & S2 & D2 & C2 & E2 & O2).
  split; [exact I2|]. split; [congruence|]. split; [rewrite fold_left_app, <- S1; exact S2|]. split; [|split; [|split]].
  - intros H. destruct (D2 H) as (P2 & N2). rewrite P2 in H. destruct (D1 H) as (P1 & N1). split; [congruence|].
    apply Forall_app. split; [exact N1|]. rewrite <- F1. exact N2.
  - rewrite fold_left_app, <- C1. exact C2.
  - rewrite E2, E1. reflexivity.
  - eapply only_trans; eassumption.
Qed.
Lemma calls_wp (E : Prop) m o : forall u, ui_inv u -> midi_ok m -> Forall ev_ok o -> wp (forM o (ui_event m)) u (fun _ u' => calls_post m o u u') E.
Proof.
  induction o as [|e o IH]; intros u I Mo Ev.
  - apply wp_ret. split; [exact I|]. split; [reflexivity|]. split; [reflexivity|]. split; [intros _; split; [reflexivity|constructor]|].
    split; [reflexivity|]. split; [destruct u; reflexivity|apply only_refl].
  - inversion Ev as [|? ? Ev1 Ev2]; subst. cbn [forM]. apply wp_bind. eapply wp_weaken; [apply (event_wp E m e u I Mo Ev1)| |exact (fun e => e)].
    intros [] u1 H1. eapply wp_weaken; [apply IH; [apply H1|exact Mo|exact Ev2]| |exact (fun e => e)].
    intros [] u2 H2. exact (calls_trans m [e] o u u1 u2 H1 H2).
Qed.
