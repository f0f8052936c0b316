(** What the user reads on the screen. *)
From Coq Require Import String Ascii.
From Verif Require Import Base BaseLemmas SynthModel SynthSpec SynthProofs MidiModel MidiSpec MidiProofs MidiEqProofs MidiEffectProofs.
From Verif Require Import DevModel DevSpec DevProofs AppModel AppSpec AppProofs CommModel TwinProofs.
From Verif Require ResetProofs MidiCallProofs MidiHistProofs AppNoteProofs.
From Verif Require Import UiModel UiSpec UiProofs UiPanelProofs UiRunProofs UiNotifyProofs UiSysProofs.

(** ** Reading *)
Lemma get_str t : forall k c, String.get k t = Some c -> zget (str t) (Z.of_nat k) = Some (Z.of_nat (nat_of_ascii c)).
Proof.
  unfold zget, str. induction t as [|a t IH]; intros k c H; [discriminate|].
  assert (P : (Z.of_nat k <? 0) = false) by lia. rewrite P, Nat2Z.id. destruct k as [|k]; cbn in *.
  - injection H as ->. reflexivity.
  - specialize (IH k c H). assert (P' : (Z.of_nat k <? 0) = false) by lia. rewrite P', Nat2Z.id in IH. exact IH.
Qed.
Lemma text_shows scr t x y : text_at scr (str t) x y -> shows scr x y t.
Proof. intros H k c Hk. apply H, get_str, Hk. Qed.
Lemma text_left scr a b x y : text_at scr (a ++ b) x y -> text_at scr a x y.
Proof.
  intros H k c Hk. apply H. unfold zget in *. destruct (k <? 0); [discriminate|]. rewrite nth_error_app1; [exact Hk|].
  apply nth_error_Some. rewrite Hk. discriminate.
Qed.
Lemma text_right scr a b x y : text_at scr (a ++ b) x y -> text_at scr b (x + Z.of_nat (List.length a)) y.
Proof.
  intros H k c Hk. assert (R := zget_Some _ _ _ Hk). rewrite <- Z.add_assoc. apply H. unfold zget in *.
  destruct (Z.ltb_spec k 0); [discriminate|]. destruct (Z.ltb_spec (Z.of_nat (List.length a) + k) 0); [lia|].
  rewrite nth_error_app2 by lia. replace (_ - _)%nat with (Z.to_nat k) by lia. exact Hk.
Qed.
Lemma text_reads scr t x y n : List.length t = n -> text_at scr t x y -> cells scr x y n = t.
Proof.
  intros <- H. unfold cells. revert x H. induction t as [|c t IH]; intros x H; [reflexivity|].
  change (zseq 0 (List.length (c :: t))) with (0 :: zseq 1 (List.length t)). cbn [map]. f_equal.
  - apply H. reflexivity.
  - replace (zseq 1 (List.length t)) with (map (fun k => 1 + k) (zseq 0 (List.length t))).
    + rewrite map_map. rewrite <- (IH (x + 1)) at 2.
      * apply map_ext. intros k. f_equal. lia.
      * exact (text_right scr [c] t x y H).
    + generalize (List.length t) as n. clear. intros n. change 1 with (1 + 0) at 2. generalize 0 as a.
      induction n as [|n IH]; intros a; [reflexivity|]. cbn [zseq map]. f_equal. rewrite IH. f_equal. lia.
Qed.
Lemma text_number scr t x y n v : List.length t = n -> number t = Some v -> text_at scr t x y -> shows_number scr x y n v.
Proof. intros L N H. unfold shows_number. rewrite (text_reads scr t x y n L H). exact N. Qed.

(** Small sweeps. *)
Lemma below (n : nat) (P : Z -> bool) : forallb P (zseq 0 n) = true -> forall v, 0 <= v < Z.of_nat n -> P v = true.
Proof. intros H v Hv. rewrite forallb_forall in H. apply H. apply in_zseq0. lia. Qed.
Lemma number_digits (f : Z -> list Z) : forallb (fun v => match number (f v) with Some w => w =? v | None => false end) (zseq 0 128) = true ->
  forall v, 0 <= v < 128 -> number (f v) = Some v.
Proof.
  intros H v Hv. assert (K := below 128 _ H v ltac:(lia)). cbv beta in K. destruct (number (f v)); [|discriminate]. f_equal. lia.
Qed.
Lemma number_pad v : 0 <= v < 128 -> number (pad 3 (dec v)) = Some v.
Proof. apply (number_digits (fun v => pad 3 (dec v))). vm_compute. reflexivity. Qed.
Lemma number_padr v : 0 <= v < 128 -> number (padr 3 (dec v)) = Some v.
Proof. apply (number_digits (fun v => padr 3 (dec v))). vm_compute. reflexivity. Qed.
Lemma hex_reads v : 0 <= v < 128 -> hex_number (hex v) = Some v.
Proof.
  intros Hv. assert (H : forallb (fun v => match hex_number (hex v) with Some w => w =? v | None => false end) (zseq 0 128) = true) by (vm_compute; reflexivity).
  assert (K := below 128 _ H v ltac:(lia)). cbv beta in K. destruct (hex_number (hex v)); [|discriminate]. f_equal. lia.
Qed.

(** ** The note column *)
Definition letter_ok (p : Z) : bool :=
  if list_eq_dec Z.eq_dec (pitch_text p) (str (note_letter p) ++ [48 + (p / 12 - 1)]) then
    (match number [48 + (p / 12 - 1)] with Some v => v =? p / 12 - 1 | None => false end) && (List.length (str (note_letter p)) =? 2)%nat
  else false.
Lemma letters p : 22 <= p <= 127 ->
  pitch_text p = str (note_letter p) ++ [48 + (p / 12 - 1)] /\ number [48 + (p / 12 - 1)] = Some (p / 12 - 1) /\ List.length (str (note_letter p)) = 2%nat.
Proof.
  intros Hp. assert (H : forallb letter_ok (zseq 22 106) = true) by (vm_compute; reflexivity).
  rewrite forallb_forall in H. specialize (H p ltac:(apply in_zseq; lia)). unfold letter_ok in H.
  destruct (list_eq_dec _ _ _) as [E|]; [|discriminate]. apply andb_prop in H as [H1 H2]. apply Nat.eqb_eq in H2.
  split; [exact E|]. split; [|exact H2]. destruct (number _); [|discriminate]. f_equal. lia.
Qed.
Lemma note_shown scr i p : 22 <= p <= 127 -> note_cells scr i p -> shows_note scr i p.
Proof.
  intros Hp H. unfold note_cells in H. replace (p =? 0) with false in H by lia. destruct (letters p Hp) as (E & N & L). rewrite E in H.
  split; [apply text_shows, (text_left _ _ _ _ _ H)|].
  apply text_right in H. rewrite L in H. exact (text_number scr [48 + (p / 12 - 1)] 9 (row i) 1%nat _ eq_refl N H).
Qed.
Lemma sounding_get m i d : midi_ok m -> 0 <= i < 10 -> dev_at m i d -> zget (sounding m) i = Some (if d_on d then d_pitch d else 0).
Proof.
  intros Mo Hi Hd. unfold sounding. rewrite zget_map. assert (P : zget (physical m) i = Some d) by (apply physical_get; split; [exact Hd|lia]).
  rewrite P. reflexivity.
Qed.

Lemma frame_notes mw delta c log s s' o i d : midi_ok (midi_of s') -> step_post mw (UFrame delta c log) s s' o -> 0 <= i < 10 -> dev_at (midi_of s') i d ->
  note_cells (scr_of s') i (if d_on d then d_pitch d else 0).
Proof.
  intros Mo (u & _ & (In & _ & _ & P & _)) Hi Hd. destruct In as ((_ & N) & _). apply N. rewrite P. apply sounding_get; assumption.
Qed.
Theorem notes_shown r mw hw mem ops delta c log s tr i d :
  watched r mw hw mem (ops ++ [UFrame delta c log]) s tr -> 0 <= i < 10 -> dev_at (midi_of s) i d ->
  (d_on d = false -> no_note (scr_of s) i) /\
  (d_on d = true -> 22 <= d_pitch d <= 127 -> shows_note (scr_of s) i (d_pitch d)) /\
  (d_on d = true -> 1 <= d_pitch d <= 21 -> shows (scr_of s) 7 (row i) "???").
Proof.
  intros H Hi Hd. apply watched_step in H as (s1 & tr1 & o & _ & _ & A & _ & _ & _ & P & _).
  assert (N := frame_notes mw delta c log s1 s o i d (proj1 (proj1 A)) P Hi Hd). split; [|split].
  - intros E. rewrite E in N. exact N.
  - intros E Hp. rewrite E in N. apply note_shown; assumption.
  - intros E Hp. rewrite E in N. unfold note_cells, pitch_text, MIN_UI_MIDI_PITCH in N. replace (d_pitch d =? 0) with false in N by lia.
    replace (21 <? d_pitch d) with false in N by lia. apply text_shows, N.
Qed.

(** ** What is refreshed every five frames *)
Lemma voice_special r si c x : MidiCallProofs.voice_call c -> In x (synth_calls r si c) -> (forall p, x <> SInit p) /\ forall b, x <> SSpecialMode b.
Proof.
  intros V. revert x. apply Forall_forall.
  assert (N : Forall (fun x => (forall p, x <> SInit p) /\ forall b, x <> SSpecialMode b) []) by constructor.
  destruct c; cbn in V; try contradiction; cbn [synth_calls]; try exact N; try (destruct v; try exact N);
    repeat match goal with |- context [if ?b then _ else _] => destruct b end;
    repeat (apply Forall_cons; [split; intros; discriminate|]); exact N.
Qed.
Lemma post_special x s : (forall p, x <> SInit p) -> (forall b, x <> SSpecialMode b) -> s_special (post x s) = s_special s.
Proof.
  intros H1 H2. destruct x; try reflexivity; try (exfalso; eapply H1; reflexivity); try (exfalso; eapply H2; reflexivity); cbn [post];
    repeat match goal with |- context [if ?b then _ else _] => destruct b end; reflexivity.
Qed.
Lemma run_special so : forall s s' o, synth_ok s -> Forall sop_ok so -> Forall (fun x => (forall p, x <> SInit p) /\ forall b, x <> SSpecialMode b) so ->
  synth_run so s = Done tt s' o -> s_special s' = s_special s.
Proof.
  induction so as [|x so IH]; intros s s' o Hs Ho Hn E.
  - injection E as <- _. reflexivity.
  - unfold synth_run in E. cbn [runM] in E. apply bind_inv in E as ([] & s1 & o1 & o2 & E1 & E2 & _).
    destruct (Forall_inv Hn) as [N1 N2]. destruct (step_runs x s Hs (Forall_inv Ho)) as (o' & E' & _).
    assert (P : s1 = post x s) by (rewrite E1 in E'; injection E' as -> _; reflexivity).
    rewrite (IH s1 s' o2); [rewrite P; apply post_special; assumption|rewrite P; apply post_ok; [exact Hs|exact (Forall_inv Ho)]|
      exact (Forall_inv_tail Ho)|exact (Forall_inv_tail Hn)|exact E2].
Qed.
Lemma tick_midi chs d : d_midi (tick_dev chs d) = d_midi d.
Proof. unfold tick_dev. destruct (zget chs (d_midi d)); [|reflexivity]. destruct (_ && _); [apply glide_midi|reflexivity]. Qed.
Lemma frame_keeps r a a' o : rom_ok r -> app_inv r a -> app_step r AFrame a = Done tt a' o ->
  mapped (a_midi a') = mapped (a_midi a) /\ md_dyn (a_midi a') = md_dyn (a_midi a) /\ s_special (v_synth (a_dev a')) = s_special (v_synth (a_dev a)).
Proof.
  intros Hr Hi E. destruct (app_step_ok r Hr AFrame a Hi I) as [(s1 & o1 & so & po & F1 & I1 & [C _] & S & _ & F & _ & cs & Em)|[[F1 _]|[F1 _]]];
    rewrite E in F1; try discriminate. apply done_inj in F1 as (_ & <- & <-).
  cbn [message midi_step] in Em. rewrite midi_tick_eq in Em by apply Hi. injection Em as Em _. rewrite <- Em. split; [|split; [reflexivity|]].
  - unfold mapped, physical. cbn [md_dev md_set_dev]. rewrite firstn_map, map_map. apply map_ext. intros d. apply tick_midi.
  - eapply (run_special so); [apply Hi|exact S| |exact C]. apply Forall_forall. intros x Hx. destruct (F _ Hx) as (si & c & M & _ & _ & Hin).
    exact (voice_special r si c x M Hin).
Qed.

Definition settled (s : sys) : Prop :=
  u_dyn (y_ui s) = md_dyn (midi_of s) /\ u_ch3 (y_ui s) = s_special (synth_of s) /\
  (forallb (Z.eqb 0) (mapped (midi_of s)) = false -> map_cells (scr_of s) (mapped (midi_of s))).
Lemma mapped_len m : midi_ok m -> List.length (mapped m) = 10%nat.
Proof. intros H. unfold mapped. rewrite map_length. apply physical_len, H. Qed.
Lemma calls_other m o u u' : calls_post m o u u' ->
  u_act u' = u_act u /\ u_dyn u' = u_dyn u /\ u_ch3 u' = u_ch3 u /\ u_mode u' = u_mode u /\ u_inited u' = u_inited u /\ u_logy u' = u_logy u.
Proof. intros (_ & _ & _ & _ & _ & E & _). rewrite E. auto 6. Qed.
Lemma settles r mw delta c log s s' o n : rom_ok r -> alive r s -> alive r s' -> app_step r AFrame (y_app s) = Done tt (y_app s') o ->
  step_post mw (UFrame delta c log) s s' o -> n <= u_act (y_ui s) \/ settled s -> n + delta <= u_act (y_ui s') \/ settled s'.
Proof.
  intros Hr A A' E (u & Cp & (_ & _ & _ & _ & _ & _ & Fp)) H. destruct (calls_other _ _ _ _ Cp) as (C1 & C2 & C3 & _).
  destruct (frame_keeps r _ _ _ Hr (proj1 A) E) as (K1 & K2 & K3). rewrite C1, C2, C3 in Fp.
  destruct (5 <=? u_act (y_ui s) + delta).
  - right. destruct Fp as (_ & F1 & F2 & _ & F3 & _). split; [exact F1|]. split; [exact F2|exact F3].
  - destruct Fp as (F0 & F1 & F2 & _ & _ & O). destruct H as [H|(H1 & H2 & H3)]; [left; lia|right].
    split; [rewrite F1, H1; symmetry; exact K2|]. split; [rewrite F2, H2; symmetry; exact K3|].
    intros Hf. unfold midi_of in *. rewrite K1 in *. eapply map_kept; [apply mapped_len, A|exact O|not_in|].
    eapply map_kept; [apply mapped_len, A|apply Cp|not_in|]. apply H3, Hf.
Qed.
Lemma elapsed_app a b : elapsed (a ++ b) = elapsed a + elapsed b.
Proof. induction a as [|op a IH]; [reflexivity|]. destruct op; cbn; rewrite IH; lia. Qed.
Lemma settled_after r mw hw mem ops later s tr : watched r mw hw mem (ops ++ later) s tr -> Forall is_frame later -> 5 <= elapsed later -> settled s.
Proof.
  intros H Hf. assert (Hr : rom_ok r) by apply H.
  assert (G : elapsed later <= u_act (y_ui s) \/ settled s).
  { revert s tr H Hf. induction later as [|op later IH] using rev_ind; intros s tr H Hf.
    - left. rewrite app_nil_r in H. assert (A := watched_alive _ _ _ _ _ _ _ H). destruct A as (_ & (_ & _ & _ & _ & _ & _ & _ & _ & Ra & _) & _). exact (proj1 Ra).
    - rewrite app_assoc in H. apply watched_step in H as (s1 & tr1 & o & H1 & A1 & A & _ & _ & E & P & _). apply Forall_app in Hf as [Hf1 Hf2].
      specialize (IH s1 tr1 H1 Hf1). destruct op as [m|delta c log]; [destruct (Forall_inv Hf2)|]. rewrite elapsed_app. cbn [elapsed heard] in *.
      replace (delta + 0) with delta by lia. exact (settles r mw delta c log s1 s o (elapsed later) Hr A1 A E P IH). }
  intros H5. destruct G as [G|G]; [|exact G]. assert (A := watched_alive _ _ _ _ _ _ _ H). destruct A as (_ & (_ & _ & _ & _ & _ & _ & _ & _ & Ra & _) & _). lia.
Qed.
Lemma map_shown scr i c : c = UNASSIGNED \/ 0 <= c < 16 -> text_at scr (map_text c) 4 (row i) -> shows_mapping scr i c.
Proof.
  intros Hc T. unfold shows_mapping. unfold map_text, UNASSIGNED in *. destruct (Z.eqb_spec c 0x7F) as [_|N]; [apply text_shows, T|].
  destruct Hc as [Hc|Hc]; [congruence|].
  assert (K : match zget MIDI_CH_TEXT c with Some t => List.length t = 2%nat /\ number t = Some (c + 1) | None => False end).
  { assert (B : forallb (fun c => match zget MIDI_CH_TEXT c with Some t => (List.length t =? 2)%nat && (match number t with Some v => v =? c + 1 | None => false end) | None => false end) (zseq 0 16) = true)
      by (vm_compute; reflexivity).
    assert (B1 := below 16 _ B c ltac:(lia)). cbv beta in B1. destruct (zget MIDI_CH_TEXT c) as [t|]; [|discriminate].
    apply andb_prop in B1 as [B1 B2]. apply Nat.eqb_eq in B1. split; [exact B1|]. destruct (number t); [|discriminate]. f_equal. lia. }
  destruct (zget MIDI_CH_TEXT c) as [t|]; [|contradiction]. destruct K as [K1 K2]. exact (text_number scr t 4 (row i) 2 _ K1 K2 T).
Qed.
Theorem mappings_shown r mw hw mem ops later s tr j dj :
  watched r mw hw mem (ops ++ later) s tr -> Forall is_frame later -> 5 <= elapsed later ->
  0 <= j < 10 -> dev_at (midi_of s) j dj -> d_midi dj <> 0 -> shows_mappings (scr_of s) (midi_of s).
Proof.
  intros H Hf H5 Hj Dj Nj. assert (A := watched_alive _ _ _ _ _ _ _ H). destruct (settled_after _ _ _ _ _ _ _ _ H Hf H5) as (_ & _ & M).
  assert (Mo : midi_ok (midi_of s)) by apply A.
  assert (G : forall i d, 0 <= i < 10 -> dev_at (midi_of s) i d -> zget (mapped (midi_of s)) i = Some (d_midi d)).
  { intros i d Hi Hd. unfold mapped. rewrite zget_map. assert (P : zget (physical (midi_of s)) i = Some d) by (apply physical_get; split; [exact Hd|lia]).
    rewrite P. reflexivity. }
  assert (Ff : forallb (Z.eqb 0) (mapped (midi_of s)) = false).
  { destruct (forallb _ _) eqn:Ef; [|reflexivity]. exfalso. apply Nj. rewrite forallb_forall in Ef. specialize (G j dj Hj Dj).
    assert (Hin : In (d_midi dj) (mapped (midi_of s))). { unfold zget in G. destruct (j <? 0); [discriminate|]. eapply nth_error_In; exact G. }
    specialize (Ef _ Hin). lia. }
  intros i d Hi Hd. apply map_shown; [|exact (M Ff i _ (G i d Hi Hd))].
  destruct Mo as (_ & _ & Md & _). destruct (Md i d Hd) as (_ & V & _). unfold valid_map, is_chan, UNASSIGNED in *. lia.
Qed.
Theorem icons_shown r mw hw mem ops later s tr :
  watched r mw hw mem (ops ++ later) s tr -> Forall is_frame later -> 5 <= elapsed later ->
  routing_icon s = md_dyn (midi_of s) /\ special_mark (scr_of s) (s_special (synth_of s)).
Proof.
  intros H Hf H5. assert (A := watched_alive _ _ _ _ _ _ _ H). destruct (settled_after _ _ _ _ _ _ _ _ H Hf H5) as (S1 & S2 & _).
  destruct A as (_ & (_ & _ & _ & Mk & _ & _ & Ic & _) & _). unfold routing_icon, special_mark. split; [congruence|].
  unfold inv_mark in Mk. rewrite S2 in Mk. exact Mk.
Qed.

(** ** The transport *)
Lemma comm_mode_range mw c : 1 <= comm_mode mw c <= 6.
Proof.
  unfold comm_mode, DISCOVERY. destruct (cm_active c) as [i|]; [|lia].
  destruct mw; do 6 (destruct i as [|i]; [cbn; lia|]); destruct i; cbn; lia.
Qed.
Lemma mode_shown scr m : 1 <= m <= 6 -> mode_cells scr m -> shows_mode scr m.
Proof.
  intros Hm. assert (X : m = 1 \/ m = 2 \/ m = 3 \/ m = 4 \/ m = 5 \/ m = 6) by lia. unfold shows_mode, mode_cells.
  repeat destruct X as [->|X]; try (cbn; exact (fun H => H)). subst m. cbn. exact (fun H => H).
Qed.
Lemma mode_seen scr m m' : 1 <= m <= 6 -> 1 <= m' <= 6 -> mode_cells scr m -> shows_mode scr m' -> m = m'.
Proof.
  intros Hm Hm' H H'. apply mode_shown in H; [|exact Hm]. unfold shows_mode, shows_transport in *.
  specialize (H 0 ltac:(lia)). specialize (H' 0 ltac:(lia)). rewrite H in H'. clear H.
  assert (X : m = 1 \/ m = 2 \/ m = 3 \/ m = 4 \/ m = 5 \/ m = 6) by lia. assert (X' : m' = 1 \/ m' = 2 \/ m' = 3 \/ m' = 4 \/ m' = 5 \/ m' = 6) by lia.
  repeat destruct X as [->|X]; repeat destruct X' as [->|X']; try reflexivity; try discriminate H'; try subst m; try subst m'; try reflexivity; discriminate H'.
Qed.
Lemma inited_iff u : inv_mode u -> 1 <= u_mode u <= 6 -> u_inited u = negb (u_mode u =? 1).
Proof.
  intros (E & _) Hm. rewrite E. assert (X : u_mode u = 1 \/ u_mode u = 2 \/ u_mode u = 3 \/ u_mode u = 4 \/ u_mode u = 5 \/ u_mode u = 6) by lia.
  repeat destruct X as [X|X]; rewrite X; reflexivity.
Qed.
(** The transport that is shown after a step. *)
Lemma mode_step mw op s s' o : step_post mw op s s' o ->
  u_mode (y_ui s') = u_mode (y_ui s) \/
  exists delta c log, op = UFrame delta c log /\ 5 <= u_act (y_ui s) + delta /\ u_inited (y_ui s) = false /\ u_mode (y_ui s') = comm_mode mw c.
Proof.
  destruct op as [m|delta c log].
  - intros P. left. apply (calls_other _ _ _ _ P).
  - intros (u & Cp & (_ & _ & _ & _ & _ & _ & Fp)). destruct (calls_other _ _ _ _ Cp) as (C1 & _ & _ & C2 & C3 & _). rewrite C1, C2, C3 in Fp.
    destruct (Z.leb_spec 5 (u_act (y_ui s) + delta)).
    + destruct Fp as (_ & _ & _ & F & _). destruct (u_inited (y_ui s)) eqn:Ei; [left; exact F|right]. exists delta, c, log. auto.
    + left. apply Fp.
Qed.
Lemma watched_mode r mw hw mem ops s tr : watched r mw hw mem ops s tr -> 1 <= u_mode (y_ui s) <= 6.
Proof.
  revert ops s tr. apply watched_ind.
  - intros s tr H. apply watched_nothing in H as (_ & (_ & _ & _ & _ & _ & E & _) & _). rewrite E. unfold DISCOVERY. lia.
  - intros ops op s tr s' o H IH Ho E. assert (H' := watched_snoc _ _ _ _ _ _ _ _ _ _ H Ho E).
    apply watched_step in H' as (s1 & tr1 & o1 & H1 & _ & _ & _ & _ & _ & P & _).
    assert (s1 = s). { destruct H as (_ & _ & _ & B). destruct H1 as (_ & _ & _ & B1). rewrite B in B1. apply done_inj in B1 as (_ & <- & _). reflexivity. }
    subst s1. destruct (mode_step _ _ _ _ _ P) as [->|(d & c & l & _ & _ & _ & ->)]; [exact IH|apply comm_mode_range].
Qed.
Definition uses_mode (mw : bool) (M : Z) (op : uop) : Prop := match op with UFrame _ c _ => comm_mode mw c = M | UMsg _ => True end.
Lemma uses_is mw M op : uses mw M op -> uses_mode mw M op.
Proof.
  destruct op as [m|d c l]; cbn [uses uses_mode]; [auto|]. unfold carried_by, comm_mode. destruct (cm_active c) as [i|]; [|auto].
  destruct mw; cbn; intros H; repeat (destruct H as [H|H]; [injection H as <- <-; reflexivity|]); destruct H.
Qed.
Lemma modes_seen r mw hw mem ops s tr M : watched r mw hw mem ops s tr -> Forall (fun op => uses_mode mw DISCOVERY op \/ uses_mode mw M op) ops ->
  u_mode (y_ui s) = DISCOVERY \/ u_mode (y_ui s) = M.
Proof.
  revert s tr. induction ops as [|op ops IH] using rev_ind; intros s tr H Hf.
  - apply watched_nothing in H as (_ & (_ & _ & _ & _ & _ & E & _) & _). left. exact E.
  - apply Forall_app in Hf as [Hf1 Hf2]. apply watched_step in H as (s1 & tr1 & o1 & H1 & _ & _ & _ & _ & _ & P & _). specialize (IH s1 tr1 H1 Hf1).
    destruct (mode_step _ _ _ _ _ P) as [->|(d & c & l & -> & _ & _ & ->)]; [exact IH|]. exact (Forall_inv Hf2).
Qed.
Lemma transport_settles r mw hw mem ops later s tr M : watched r mw hw mem (ops ++ later) s tr -> Forall is_frame later ->
  Forall (fun op => uses_mode mw DISCOVERY op \/ uses_mode mw M op) ops -> Forall (uses_mode mw M) later ->
  elapsed later <= u_act (y_ui s) \/ u_mode (y_ui s) = M.
Proof.
  revert s tr. induction later as [|op later IH] using rev_ind; intros s tr H Hf Ho Hl.
  - left. rewrite app_nil_r in H. assert (A := watched_alive _ _ _ _ _ _ _ H). destruct A as (_ & (_ & _ & _ & _ & _ & _ & _ & _ & Ra & _) & _). exact (proj1 Ra).
  - assert (Hs : Forall (fun op => uses_mode mw DISCOVERY op \/ uses_mode mw M op) (ops ++ later ++ [op])).
    { apply Forall_app. split; [exact Ho|]. eapply Forall_impl; [|exact Hl]. auto. }
    assert (Seen := modes_seen _ _ _ _ _ _ _ M H Hs).
    rewrite app_assoc in H. assert (Hw := watched_mode _ _ _ _ _ _ _ H).
    apply watched_step in H as (s1 & tr1 & o & H1 & A1 & A & _ & _ & _ & P & _). apply Forall_app in Hf as [Hf1 Hf2]. apply Forall_app in Hl as [Hl1 Hl2].
    specialize (IH s1 tr1 H1 Hf1 Ho Hl1). destruct op as [m|delta c log]; [destruct (Forall_inv Hf2)|]. rewrite elapsed_app. cbn [elapsed].
    destruct P as (u & Cp & (_ & _ & _ & _ & _ & _ & Fp)). destruct (calls_other _ _ _ _ Cp) as (C1 & _ & _ & C2 & C3 & _). rewrite C1, C2, C3 in Fp.
    assert (Im : inv_mode (y_ui s1)) by (destruct A1 as (_ & (_ & _ & X & _) & _); exact X).
    assert (Hw1 := watched_mode _ _ _ _ _ _ _ H1). assert (Ei := inited_iff _ Im Hw1).
    assert (Hc := Forall_inv Hl2). cbn in Hc.
    destruct (Z.leb_spec 5 (u_act (y_ui s1) + delta)).
    + right. destruct Fp as (_ & _ & _ & F & _). rewrite Ei in F. destruct (Z.eqb_spec (u_mode (y_ui s1)) 1) as [E1|N1]; cbn [negb] in F; [congruence|].
      rewrite F in *. destruct Seen as [E|E]; [unfold DISCOVERY in E; contradiction|exact E].
    + destruct Fp as (F0 & _ & _ & F & _). destruct IH as [IH|IH]; [left; lia|right; congruence].
Qed.
Lemma transport_shown_mode r mw hw mem ops later s tr M : watched r mw hw mem (ops ++ later) s tr ->
  Forall (fun op => uses_mode mw DISCOVERY op \/ uses_mode mw M op) ops -> Forall is_frame later -> Forall (uses_mode mw M) later -> 5 <= elapsed later ->
  shows_mode (scr_of s) M.
Proof.
  intros H Ho Hf Hl H5. assert (A := watched_alive _ _ _ _ _ _ _ H). assert (Hw := watched_mode _ _ _ _ _ _ _ H).
  destruct A as (_ & (_ & _ & (_ & Im) & _ & _ & _ & _ & _ & Ra & _) & _).
  destruct (transport_settles _ _ _ _ _ _ _ _ M H Hf Ho Hl) as [K|K]; [lia|]. rewrite K in *. apply mode_shown; assumption.
Qed.
Lemma waiting_shown_mode r mw hw mem ops s tr : watched r mw hw mem ops s tr -> Forall (uses_mode mw DISCOVERY) ops -> shows_mode (scr_of s) DISCOVERY.
Proof.
  intros H Ho. assert (A := watched_alive _ _ _ _ _ _ _ H). destruct A as (_ & (_ & _ & (_ & Im) & _) & _).
  destruct (modes_seen _ _ _ _ _ _ _ DISCOVERY H) as [K|K]; [eapply Forall_impl; [|exact Ho]; auto|rewrite K in *; apply mode_shown; [unfold DISCOVERY; lia|exact Im]..].
Qed.
Theorem transport_shown r mw hw mem ops later s tr M : watched r mw hw mem (ops ++ later) s tr ->
  Forall (fun op => uses mw DISCOVERY op \/ uses mw M op) ops -> Forall is_frame later -> Forall (uses mw M) later -> 5 <= elapsed later ->
  shows_mode (scr_of s) M.
Proof.
  intros H Ho Hf Hl H5. apply (transport_shown_mode _ _ _ _ _ _ _ _ M H); [|exact Hf| |exact H5].
  - eapply Forall_impl; [|exact Ho]. intros op [K|K]; [left|right]; apply uses_is, K.
  - eapply Forall_impl; [|exact Hl]. intros op. apply uses_is.
Qed.
Theorem waiting_shown r mw hw mem ops s tr : watched r mw hw mem ops s tr -> Forall (uses mw DISCOVERY) ops -> shows_mode (scr_of s) DISCOVERY.
Proof. intros H Ho. apply (waiting_shown_mode _ _ _ _ _ _ _ H). eapply Forall_impl; [|exact Ho]. intros op. apply uses_is. Qed.
Theorem transport_stays r mw hw mem ops more s tr s' tr' M : watched r mw hw mem ops s tr -> 2 <= M <= 6 -> shows_mode (scr_of s) M ->
  watched r mw hw mem (ops ++ more) s' tr' -> shows_mode (scr_of s') M.
Proof.
  intros H HM Hs. assert (Mode : u_mode (y_ui s) = M).
  { assert (A := watched_alive _ _ _ _ _ _ _ H). destruct A as (_ & (_ & _ & (_ & Im) & _) & _).
    eapply mode_seen; [eapply watched_mode; exact H| |exact Im|exact Hs]. lia. }
  intros H'. assert (K : u_mode (y_ui s') = M).
  { revert s' tr' H'. induction more as [|op more IH] using rev_ind; intros s' tr' H'.
    - rewrite app_nil_r in H'. destruct H as (_ & _ & _ & B). destruct H' as (_ & _ & _ & B'). rewrite B in B'. apply done_inj in B' as (_ & <- & _). exact Mode.
    - rewrite app_assoc in H'. apply watched_step in H' as (s1 & tr1 & o1 & H1 & A1 & _ & _ & _ & _ & P & _). specialize (IH s1 tr1 H1).
      destruct (mode_step _ _ _ _ _ P) as [->|(d & c & l & _ & _ & Ei & _)]; [exact IH|].
      destruct A1 as (_ & (_ & _ & Im & _) & _). rewrite (inited_iff _ Im) in Ei by lia. rewrite IH in Ei. replace (M =? 1) with false in Ei by lia. discriminate. }
  assert (A := watched_alive _ _ _ _ _ _ _ H'). destruct A as (_ & (_ & _ & (_ & Im) & _) & _). rewrite K in Im. apply mode_shown; [lia|exact Im].
Qed.

(** ** What is attached *)
Lemma attached_step mw op s s' o : step_post mw op s s' o -> att (y_ui s) (y_ui s').
Proof.
  assert (C : forall m u u', calls_post m o u u' -> att u u').
  { intros m u u' Cp. eapply att_only; [apply (calls_other _ _ _ _ Cp)|apply Cp|not_in]. }
  destruct op as [m|delta c log]; [apply C|]. intros (u & Cp & (_ & _ & (At & _) & _)). exact (att_trans _ _ _ (C _ _ _ Cp) At).
Qed.
Lemma attached_inv r mw hw mem ops s tr : watched r mw hw mem ops s tr ->
  if u_inited (y_ui s) then blank_at (scr_of s) 17 26 5 else attached_cells (x7_detected hw) (pro_detected hw) (scr_of s).
Proof.
  revert s tr. induction ops as [|op ops IH] using rev_ind; intros s tr H.
  - apply watched_start in H as (_ & (S & A) & _). destruct S as (_ & _ & _ & _ & E & _). rewrite E. exact A.
  - apply watched_step in H as (s1 & tr1 & o1 & H1 & _ & _ & _ & _ & _ & P & _). specialize (IH s1 tr1 H1).
    destruct (attached_step _ _ _ _ _ P) as [[E K]|[E K]]; rewrite E; [|exact K].
    destruct (u_inited (y_ui s1)); intros k Hk; unfold scr_of; rewrite K by exact Hk; apply IH, Hk.
Qed.
Theorem attached_shown r mw hw mem ops s tr : watched r mw hw mem ops s tr -> shows_mode (scr_of s) DISCOVERY ->
  (pro_detected hw = true -> shows_attached (scr_of s) PIC_WAIT_EDPRO) /\
  (pro_detected hw = false -> x7_detected hw = true -> shows_attached (scr_of s) PIC_WAIT_EDX7) /\
  (pro_detected hw = false -> x7_detected hw = false -> empty (scr_of s) 17 26 5).
Proof.
  intros H Hs. assert (A := watched_alive _ _ _ _ _ _ _ H). assert (Hw := watched_mode _ _ _ _ _ _ _ H). assert (K := attached_inv _ _ _ _ _ _ _ H).
  destruct A as (_ & (_ & _ & Im & _) & _). assert (E := inited_iff _ Im Hw).
  rewrite (mode_seen (scr_of s) (u_mode (y_ui s)) DISCOVERY Hw ltac:(unfold DISCOVERY; lia) (proj2 Im) Hs) in E. rewrite E in K. cbn in K.
  split; [|split].
  - intros E1 k Hk. rewrite K, E1 by exact Hk. reflexivity.
  - intros E1 E2 k Hk. rewrite K, E1, E2 by exact Hk. reflexivity.
  - intros E1 E2 k Hk. rewrite K, E1, E2 by exact Hk. reflexivity.
Qed.
Theorem attached_gone r mw hw mem ops s tr M : watched r mw hw mem ops s tr -> 2 <= M <= 6 -> shows_mode (scr_of s) M -> empty (scr_of s) 17 26 5.
Proof.
  intros H HM Hs. assert (A := watched_alive _ _ _ _ _ _ _ H). assert (Hw := watched_mode _ _ _ _ _ _ _ H). assert (K := attached_inv _ _ _ _ _ _ _ H).
  destruct A as (_ & (_ & _ & Im & _) & _). assert (E := inited_iff _ Im Hw).
  rewrite (mode_seen (scr_of s) (u_mode (y_ui s)) M Hw ltac:(lia) (proj2 Im) Hs) in E. replace (M =? 1) with false in E by lia. rewrite E in K. exact K.
Qed.

(** ** The lamps *)
Fixpoint age_after (a : Z) (ops : list uop) : Z :=
  match ops with
  | [] => a
  | UMsg _ :: t => age_after a t
  | UFrame d _ _ :: t => age_after (if 15 <=? a + d then 0 else a + d) t
  end.
Lemma age_snoc op ops : forall a, age_after a (ops ++ [op]) =
  match op with UMsg _ => age_after a ops | UFrame d _ _ => let b := age_after a ops + d in if 15 <=? b then 0 else b end.
Proof. induction ops as [|x ops IH]; intros a; [destruct op; reflexivity|]. destruct x; cbn [Datatypes.app age_after]; apply IH. Qed.
Lemma measured_snoc op ops : forall a, measured a (ops ++ [op]) = measured a ops ++
  match op with UMsg _ => [] | UFrame d c _ => if 15 <=? age_after a ops + d then [c] else [] end.
Proof.
  induction ops as [|x ops IH]; intros a.
  - destruct op as [m|d c l]; [reflexivity|]. cbn. destruct (15 <=? a + d); reflexivity.
  - destruct x as [m|d c l]; cbn [Datatypes.app measured age_after]; [apply IH|]. destruct (15 <=? a + d); rewrite IH; reflexivity.
Qed.
Definition lamp_inv (l : list comm) (scr : Z -> Z -> Z) : Prop :=
  match rev l with [] => lamp_cells scr 0 | c :: _ => 0 <= cm_idle c -> 0 <= cm_reads c -> lamp_cells scr (busy_share c) end.
Lemma lamp_inv_same l scr scr' : lamps_same scr scr' -> lamp_inv l scr -> lamp_inv l scr'.
Proof.
  intros Sm. unfold lamp_inv. destruct (rev l) as [|c t].
  - intros H k Hk. rewrite (Sm k Hk). apply H, Hk.
  - intros H H1 H2 k Hk. rewrite (Sm k Hk). apply H; assumption.
Qed.
Lemma calls_lamps m o u u' : calls_post m o u u' -> u_meter u' = u_meter u /\ lamps_same (u_scr u) (u_scr u').
Proof. intros (_ & _ & _ & _ & _ & E & O). split; [rewrite E; reflexivity|]. eapply lamps_kept; [exact O|not_in]. Qed.
Lemma watched_lamps r mw hw mem ops s tr : watched r mw hw mem ops s tr ->
  u_meter (y_ui s) = mkMeter 0 (age_after 0 ops) (age_after 0 ops) /\ 0 <= age_after 0 ops < 15 /\ lamp_inv (measured 0 ops) (scr_of s).
Proof.
  revert s tr. induction ops as [|op ops IH] using rev_ind; intros s tr H.
  - apply watched_nothing in H as (_ & (_ & _ & _ & _ & _ & _ & _ & _ & _ & _ & _ & E & L) & _). split; [exact E|]. split; [cbn; lia|exact L].
  - apply watched_step in H as (s1 & tr1 & o1 & H1 & _ & _ & Ho & _ & _ & P & _). destruct (IH s1 tr1 H1) as (IH1 & IH2 & IH3).
    rewrite age_snoc, measured_snoc. destruct op as [m|delta c log].
    + destruct (calls_lamps _ _ _ _ P) as [E Sm]. rewrite app_nil_r, E. split; [exact IH1|]. split; [exact IH2|]. exact (lamp_inv_same _ _ _ Sm IH3).
    + cbv zeta. destruct P as (u & Cp & (_ & _ & (_ & Lp) & _)). destruct (calls_lamps _ _ _ _ Cp) as [E Sm]. rewrite <- E in IH1.
      specialize (Lp _ IH1 IH2). cbn in Ho. destruct (Z.leb_spec 15 (age_after 0 ops + delta)); destruct Lp as [L1 L2].
      * split; [exact L1|]. split; [lia|]. unfold lamp_inv. rewrite rev_app_distr. exact L2.
      * split; [exact L1|]. split; [lia|]. rewrite app_nil_r. eapply lamp_inv_same; [exact L2|]. exact (lamp_inv_same _ _ _ Sm IH3).
Qed.
Theorem lamps_shown r mw hw mem ops s tr : watched r mw hw mem ops s tr ->
  (measured 0 ops = [] -> forall k, 0 <= k < 4 -> lamp (scr_of s) k false) /\
  forall l c, measured 0 ops = l ++ [c] -> 0 <= cm_idle c -> 0 <= cm_reads c ->
    0 <= busy_percent c <= 100 /\ forall k, 0 <= k < 4 -> exists on, lamp (scr_of s) k on /\ (on = true <-> 0 < busy_percent c /\ 25 * k <= busy_percent c).
Proof.
  intros H. destruct (watched_lamps _ _ _ _ _ _ _ H) as (_ & _ & L). unfold lamp_inv in L. split.
  - intros E k Hk. rewrite E in L. exact (L k Hk).
  - intros l c E H1 H2. rewrite E, rev_app_distr in L. cbn [rev Datatypes.app] in L. split; [exact (busy_share_range c H1 H2)|]. intros k Hk.
    exists ((0 <? busy_percent c) && (25 * k <=? busy_percent c)). split; [exact (L H1 H2 k Hk)|]. lia.
Qed.

(** ** The log *)
Fixpoint act_after (a : Z) (ops : list uop) : Z :=
  match ops with
  | [] => a
  | UMsg _ :: t => act_after a t
  | UFrame d _ _ :: t => act_after (if 5 <=? a + d then 0 else a + d) t
  end.
Definition taken (a : Z) (op : uop) : list (list Z) :=
  match op with UFrame d _ (Some msg) => if 5 <=? a + d then [msg] else [] | _ => [] end.
Lemma act_snoc op ops : forall a, act_after a (ops ++ [op]) = match op with UMsg _ => act_after a ops | UFrame d _ _ => let b := act_after a ops + d in if 5 <=? b then 0 else b end.
Proof. induction ops as [|x ops IH]; intros a; [destruct op; reflexivity|]. destruct x; cbn [Datatypes.app act_after]; apply IH. Qed.
Lemma logged_snoc op ops : forall a, logged a (ops ++ [op]) = logged a ops ++ taken (act_after a ops) op.
Proof.
  induction ops as [|x ops IH]; intros a.
  - cbn. destruct op as [m|d c [l|]]; try reflexivity; cbn; destruct (5 <=? a + d); reflexivity.
  - destruct x as [m|d c [l|]]; cbn [Datatypes.app logged act_after]; rewrite ?IH; [reflexivity| |]; destruct (5 <=? a + d); rewrite ?IH; reflexivity.
Qed.
Definition log_inv (l : list (list Z)) (u : ui) : Prop :=
  match rev l with
  | [] => u_logy u = 0
  | m :: t => u_logy u = (if Nat.even (List.length t) then 1 else 2) /\ line (u_scr u) (22 + u_logy u) m /\
      (u_logy u = 2 -> match t with m' :: _ => line (u_scr u) 23 m' | [] => False end)
  end.
Lemma log_kept l u u' : u_logy u' = u_logy u -> (forall x y, 4 <= x -> 23 <= y <= 24 -> u_scr u' x y = u_scr u x y) -> log_inv l u -> log_inv l u'.
Proof.
  intros E K. unfold log_inv. rewrite E. destruct (rev l) as [|m t]; [exact (fun H => H)|]. intros (H1 & H2 & H3). split; [exact H1|].
  assert (R : 1 <= u_logy u <= 2) by (rewrite H1; destruct (Nat.even _); lia). split.
  - intros k c Hk. assert (Rk := zget_Some _ _ _ Hk). rewrite K by lia. apply H2, Hk.
  - intros E2. specialize (H3 E2). destruct t as [|m' t]; [exact H3|]. intros k c Hk. assert (Rk := zget_Some _ _ _ Hk). rewrite K by lia. apply H3, Hk.
Qed.
Lemma log_only l scr scr' : only l scr scr' -> ~ In LOGS l -> forall x y, 4 <= x -> 23 <= y <= 24 -> scr' x y = scr x y.
Proof. intros O H x y Hx Hy. apply O. rewrite region_logs by lia. exact H. Qed.
Lemma log_step mw op s s' o l : step_post mw op s s' o -> 0 <= u_logy (y_ui s) <= 2 -> log_inv l (y_ui s) -> log_inv (l ++ taken (u_act (y_ui s)) op) (y_ui s').
Proof.
  assert (C : forall m u u', calls_post m o u u' -> log_inv l u -> log_inv l u').
  { intros m u u' Cp. apply log_kept; [apply (calls_other _ _ _ _ Cp)|eapply log_only; [apply Cp|not_in]]. }
  destruct op as [m|delta c log].
  - intros P _ H. cbn [taken]. rewrite app_nil_r. exact (C _ _ _ P H).
  - intros (u & Cp & (_ & _ & _ & _ & _ & _ & Fp)) R H. assert (L := C _ _ _ Cp H). destruct (calls_other _ _ _ _ Cp) as (C1 & _ & _ & _ & _ & C6). rewrite C1 in Fp.
    unfold taken. destruct (5 <=? u_act (y_ui s) + delta).
    + destruct Fp as (_ & _ & _ & _ & _ & F). destruct log as [msg|]; [|rewrite app_nil_r; destruct F as (F1 & F2); eapply log_kept; [exact F1|eapply log_only; [exact F2|not_in]|exact L]].
      destruct F as (T & Y & K). unfold log_row in T. unfold log_inv in *. rewrite rev_app_distr. cbn [rev Datatypes.app].
      assert (Len : List.length (rev l) = List.length l) by apply rev_length.
      destruct (rev l) as [|m' t] eqn:El.
      * rewrite L in Y. change (u_logy (y_ui s') = 1) in Y. rewrite Y in T |- *. split; [reflexivity|]. split; [exact T|]. intros W; discriminate W.
      * destruct L as (L1 & L2 & L3). cbn [List.length]. rewrite Nat.even_succ, <- Nat.negb_even.
        destruct (Nat.even (List.length t)); rewrite L1 in Y; cbn in Y |- *; rewrite Y in T |- *.
        -- split; [reflexivity|]. split; [exact T|]. intros _. intros k x Hk. assert (Rk := zget_Some _ _ _ Hk). rewrite K by lia. rewrite L1 in L2. apply L2, Hk.
        -- split; [reflexivity|]. split; [exact T|]. intros W; discriminate W.
    + destruct Fp as (_ & _ & _ & _ & F1 & F2). destruct log; rewrite app_nil_r; (eapply log_kept; [exact F1|eapply log_only; [exact F2|not_in]|exact L]).
Qed.
Lemma watched_log r mw hw mem ops s tr : watched r mw hw mem ops s tr -> u_act (y_ui s) = act_after 0 ops /\ log_inv (logged 0 ops) (y_ui s).
Proof.
  revert s tr. induction ops as [|op ops IH] using rev_ind; intros s tr H.
  - apply watched_nothing in H as (_ & (_ & _ & _ & _ & _ & _ & _ & E & L & _) & _). split; [exact E|exact L].
  - apply watched_step in H as (s1 & tr1 & o1 & H1 & A1 & A & _ & _ & _ & P & _). destruct (IH s1 tr1 H1) as [IH1 IH2].
    rewrite act_snoc, logged_snoc, <- IH1. split.
    + destruct op as [m|delta c log]; [rewrite (proj1 (calls_other _ _ _ _ P)); reflexivity|].
      destruct P as (u & Cp & (_ & _ & _ & _ & _ & _ & Fp)). destruct (calls_other _ _ _ _ Cp) as (C1 & _). rewrite C1 in Fp. cbv zeta.
      destruct (5 <=? u_act (y_ui s1) + delta); apply Fp.
    + eapply log_step; [exact P| |exact IH2]. apply A1.
Qed.
Theorem log_shown r mw hw mem ops s tr l m : watched r mw hw mem ops s tr -> logged 0 ops = l ++ [m] ->
  line (scr_of s) (if Nat.even (List.length l) then 23 else 24) m /\
  (forall l' m', l = l' ++ [m'] -> Nat.even (List.length l) = false -> line (scr_of s) 23 m').
Proof.
  intros H E. destruct (watched_log _ _ _ _ _ _ _ H) as [_ L]. unfold log_inv in L. rewrite E, rev_app_distr in L. cbn [rev Datatypes.app] in L.
  destruct L as (L1 & L2 & L3). rewrite rev_length in L1. split.
  - destruct (Nat.even (List.length l)); rewrite L1 in L2; exact L2.
  - intros l' m' -> Ev. rewrite Ev in L1. specialize (L3 L1). rewrite rev_app_distr in L3. exact L3.
Qed.
(** ** Fixed texts *)
Theorem texts_fixed r mw hw mem ops s tr : watched r mw hw mem ops s tr ->
  Forall (fun h : Z * Z * string => shows (scr_of s) (fst (fst h)) (snd (fst h)) (snd h)) fixed_texts.
Proof.
  intros H. assert (A := watched_alive _ _ _ _ _ _ _ H). destruct A as (_ & (_ & _ & _ & _ & _ & L & _) & _). unfold labels in L. rewrite Forall_forall in L.
  apply Forall_forall. intros h Hh. apply text_shows. assert (Hin : In (str (snd h), fst (fst h), snd (fst h)) label_cells).
  { clear -Hh. unfold fixed_texts in Hh. cbn in Hh. cbn. repeat destruct Hh as [<-|Hh]; cbn; tauto. }
  exact (L _ Hin).
Qed.

(** ** The change column *)
Lemma chg_filter m o : forall l, fold_left (chg_step m) o l = fold_left (chg_step m) (filter ui_ev o) l.
Proof. induction o as [|e o IH]; intros l; [reflexivity|]. destruct e; cbn; apply IH. Qed.
Lemma chg_get m l i d g k c key v : midi_ok m -> List.length l = 10%nat -> 0 <= i < 10 -> dev_at m i d -> zget l i = Some g ->
  zget (chg_step m l (EvMidiChange k c key v)) i = Some (if d_midi d =? c then mkChange k key v UI_CHANGE_TTL else g).
Proof.
  intros Mo L Hi Hd Hg. cbn [chg_step]. rewrite zget_map, zget_combine, Hg. assert (E : zget (physical m) i = Some d) by (apply physical_get; auto with zarith).
  rewrite E. reflexivity.
Qed.
(** What a step does to the remembered change of device channel [i]. *)
Definition new_change (op : uop) (g : change) : change :=
  match op with UMsg (MCc _ k v) => mkChange 2 k v 150 | UMsg (MProgram _ v) => mkChange 1 0 v 150 | _ => g end.
Lemma ui_no_chg m b : forall l, fold_left (chg_step m) (if b : bool then [EvUi (fst l) (snd l)] else []) = fun x => x.
Proof. intros l. destruct b; reflexivity. Qed.
Lemma change_step mw op s s' o i d g : midi_ok (midi_of s') -> inv_changes (y_ui s) -> 0 <= i < 10 -> dev_at (midi_of s') i d -> uop_ok op ->
  step_post mw op s s' o -> filter ui_ev o = reports (midi_of s) (message (heard op)) -> zget (u_changes (y_ui s)) i = Some g ->
  (addresses op s' i -> zget (u_changes (y_ui s')) i = Some (new_change op g)) /\
  (~ addresses op s' i -> zget (u_changes (y_ui s')) i = Some (match op with UFrame _ _ _ => tick g | _ => g end)).
Proof.
  intros Mo (L & _) Hi Hd Ho P R Hg.
  assert (C : forall u, calls_post (midi_of s') o (y_ui s) u -> u_changes u = fold_left (chg_step (midi_of s')) (reports (midi_of s) (message (heard op))) (u_changes (y_ui s))).
  { intros u Cp. rewrite <- R, <- chg_filter. apply Cp. }
  assert (Same : forall d', dev_at (midi_of s') i d' -> d' = d) by (intros d' H; unfold dev_at in *; congruence).
  destruct op as [m|delta c log].
  - cbn [step_post] in P. rewrite (C _ P). cbn [heard message].
    assert (No : reports (midi_of s) m = [] -> ~ addresses (UMsg m) s' i -> zget (fold_left (chg_step (midi_of s')) (reports (midi_of s) m) (u_changes (y_ui s))) i = Some g)
      by (intros -> _; exact Hg).
    destruct m as [c p v|c p|c k v|c v|c b|data| | |b];
      try (split; [intros (c' & d' & [(? & ? & [=])|(? & [=])] & _)|intros Ha; apply No; [reflexivity|exact Ha]]).
    + cbn [reports]. rewrite fold_left_app. replace (fold_left (chg_step (midi_of s')) (if (k =? 83) && negb (md_nogm (midi_of s)) then [EvUi c (b2z (64 <=? v))] else []) (u_changes (y_ui s)))
        with (u_changes (y_ui s)) by (destruct (_ && _); reflexivity). cbn [fold_left]. rewrite (chg_get _ _ i d g) by assumption. split.
      * intros (c' & d' & H & H1 & H2). rewrite (Same _ H1) in H2. destruct H as [(k' & v' & [= -> -> ->])|(v' & [=])]. rewrite H2, Z.eqb_refl. reflexivity.
      * intros Ha. destruct (Z.eqb_spec (d_midi d) c) as [E|N]; [|reflexivity]. destruct Ha. exists c, d. split; [left; exists k, v; reflexivity|]. auto.
    + cbn [reports fold_left]. rewrite (chg_get _ _ i d g) by assumption. split.
      * intros (c' & d' & H & H1 & H2). rewrite (Same _ H1) in H2. destruct H as [(k' & v' & [=])|(v' & [= -> ->])]. rewrite H2, Z.eqb_refl. reflexivity.
      * intros Ha. destruct (Z.eqb_spec (d_midi d) c) as [E|N]; [|reflexivity]. destruct Ha. exists c, d. split; [right; exists v; reflexivity|]. auto.
  - destruct P as (u & Cp & (_ & _ & _ & _ & F & _)). rewrite F, (C _ Cp). cbn [heard message reports fold_left]. rewrite zget_map, Hg. split; [|reflexivity].
    intros (c' & d' & [(? & ? & [=])|(? & [=])] & _).
Qed.
Definition aged (g : change) (n : Z) : change := if n <=? 150 then mkChange (g_type g) (g_key g) (g_value g) (150 - n) else mkChange 0 (g_key g) (g_value g) 0.
Lemma aged_tick g n : g_type g <> 0 -> 0 <= n -> tick (aged g n) = aged g (n + 1).
Proof.
  intros Ht Hn. unfold aged, tick. destruct (Z.leb_spec n 150) as [H|H]; cbn.
  - replace (g_type g =? 0) with false by lia. destruct (Z.eqb_spec (150 - n) 0) as [E|N].
    + replace (n + 1 <=? 150) with false by lia. reflexivity.
    + replace (n + 1 <=? 150) with true by lia. f_equal. lia.
  - replace (n + 1 <=? 150) with false by lia. reflexivity.
Qed.
Lemma frames_pos ops : 0 <= frames ops.
Proof. induction ops as [|[m|d c l] t IH]; cbn [frames]; lia. Qed.
Lemma phys_dev m i : midi_ok m -> 0 <= i < 10 -> exists d, dev_at m i d.
Proof. intros (L & _) Hi. apply (zget_in_range (md_dev m) i). rewrite L. lia. Qed.
Lemma undisturbed_ages r mw i g later : rom_ok r -> 0 <= i < 10 -> g_type g <> 0 -> forall s s', undisturbed r mw i s later s' -> alive r s ->
  forall n, 0 <= n -> zget (u_changes (y_ui s)) i = Some (aged g n) -> zget (u_changes (y_ui s')) i = Some (aged g (n + frames later)) /\ alive r s'.
Proof.
  intros Hr Hi Ht. induction later as [|op later IH]; intros s s' U A n Hn Hg; inversion U; subst.
  - cbn. rewrite Z.add_0_r. auto.
  - match goal with H : uop_ok op |- _ => rename H into Ho end. match goal with H : u_step _ _ _ _ = _ |- _ => rename H into E end.
    assert (K := u_step_ok r Hr mw op s A Ho). rewrite E in K. destruct K as (A1 & _ & P & R).
    destruct (phys_dev (midi_of s1) i) as (d & Hd); [apply A1|exact Hi|].
    destruct (change_step mw op s s1 o i d _ ltac:(apply A1) ltac:(apply A) Hi Hd Ho P R Hg) as [_ C]. specialize (C ltac:(assumption)).
    destruct op as [m|delta c log]; cbn [frames].
    + eapply IH; eassumption.
    + rewrite aged_tick in C by assumption. rewrite Z.add_assoc. eapply IH; [eassumption|exact A1|lia|exact C].
Qed.
Lemma column_after r mw hw mem ops s0 tr op s1 o i d later s2 g : watched r mw hw mem ops s0 tr -> uop_ok op -> u_step r mw op s0 = Done tt s1 o ->
  0 <= i < 10 -> dev_at (midi_of s1) i d -> addresses op s1 i -> (forall x, new_change op x = g) -> g_ttl g = 150 -> g_type g <> 0 ->
  undisturbed r mw i s1 later s2 -> change_cells (scr_of s2) i (aged g (frames later)).
Proof.
  intros W Ho E Hi Hd Ha Hn Hl Ht U. assert (Hr : rom_ok r) by apply W. assert (A := watched_alive _ _ _ _ _ _ _ W).
  assert (K := u_step_ok r Hr mw op s0 A Ho). rewrite E in K. destruct K as (A1 & _ & P & R).
  destruct (zget_in_range (u_changes (y_ui s0)) i) as (x & Hx); [destruct A as (_ & (_ & (L & _) & _) & _); rewrite L; lia|].
  destruct (change_step mw op s0 s1 o i d _ ltac:(apply A1) ltac:(apply A) Hi Hd Ho P R Hx) as [C _]. specialize (C Ha). rewrite Hn in C.
  destruct (undisturbed_ages r mw i g later Hr Hi Ht s1 s2 U A1 0 ltac:(lia)) as [C2 A2].
  { rewrite C. f_equal. destruct g as [t k v l]. cbn in Hl. subst l. reflexivity. }
  destruct A2 as (_ & (_ & (_ & I) & _) & _). exact (I _ _ C2).
Qed.
Lemma cc_text scr i k v t : 0 <= k < 128 -> 0 <= v < 128 -> text_at scr (change_text (mkChange 2 k v t)) 11 (row_y i) -> shows_cc scr i k v.
Proof.
  intros Hk Hv T. unfold change_text in T. cbn [g_type g_key g_value Z.eqb] in T. change (2 =? 1) with false in T. cbv iota in T.
  assert (L : forall x, List.length (hex x) = 2%nat) by reflexivity. unfold shows_cc, row in *. unfold row_y in T.
  assert (T1 := text_left _ _ _ _ _ T). apply text_right in T. assert (T2 := text_left _ _ _ _ _ T). apply text_right in T. assert (T3 := text_left _ _ _ _ _ T). apply text_right in T.
  rewrite L in *. change (Z.of_nat (List.length (str "CC"))) with 2 in *. change (Z.of_nat (List.length (str "="))) with 1 in *.
  change (11 + 2 + Z.of_nat 2 + 1) with 16 in T. change (11 + 2) with 13 in T2. change (11 + 2 + Z.of_nat 2) with 15 in T3.
  split; [apply text_shows, T1|]. split; [rewrite (text_reads _ (hex k) _ _ _ (L k) T2); apply hex_reads, Hk|]. split; [apply text_shows, T3|].
  rewrite (text_reads _ (hex v) _ _ _ (L v) T). apply hex_reads, Hv.
Qed.
Lemma program_text scr i v t : 0 <= v < 128 -> text_at scr (change_text (mkChange 1 0 v t)) 11 (row_y i) -> shows_program scr i v.
Proof.
  intros Hv T. unfold change_text in T. cbn [g_type g_key g_value] in T. change (1 =? 1) with true in T. cbv iota in T. unfold shows_program, row. unfold row_y in T.
  assert (T1 := text_left _ _ _ _ _ T). apply text_right in T. change (Z.of_nat (List.length (str "P="))) with 2 in T. split; [apply text_shows, T1|].
  eapply text_number; [|apply number_padr, Hv|exact T]. unfold padr. rewrite app_length, repeat_length. assert (D := dec_len v). lia.
Qed.
Theorem controller_shown r mw hw mem ops s0 tr c k v s1 o i d later s2 : watched r mw hw mem ops s0 tr -> mop_ok (MCc c k v) ->
  u_step r mw (UMsg (MCc c k v)) s0 = Done tt s1 o -> 0 <= i < 10 -> dev_at (midi_of s1) i d -> d_midi d = c -> undisturbed r mw i s1 later s2 ->
  (1 <= frames later <= 150 -> shows_cc (scr_of s2) i k v) /\ (151 <= frames later -> empty (scr_of s2) 11 (row i) 7).
Proof.
  intros W Hm E Hi Hd Hc U. assert (Ho : uop_ok (UMsg (MCc c k v))) by (split; [exact Hm|intros [b Hb]; discriminate Hb]).
  assert (C := column_after r mw hw mem ops s0 tr _ s1 o i d later s2 (mkChange 2 k v 150) W Ho E Hi Hd
    (ex_intro _ c (ex_intro _ d (conj (or_introl (ex_intro _ k (ex_intro _ v eq_refl))) (conj Hd Hc)))) (fun _ => eq_refl) eq_refl ltac:(discriminate) U).
  unfold aged in C. split; intros Hf.
  - replace (frames later <=? 150) with true in C by lia. destruct C as (_ & _ & _ & C). destruct Hm as (_ & Hk & Hv). eapply cc_text; [exact Hk|exact Hv|]. apply C; cbn; lia.
  - replace (frames later <=? 150) with false in C by lia. destruct C as (_ & _ & C & _). apply C. reflexivity.
Qed.
Theorem program_shown r mw hw mem ops s0 tr c v s1 o i d later s2 : watched r mw hw mem ops s0 tr -> mop_ok (MProgram c v) ->
  u_step r mw (UMsg (MProgram c v)) s0 = Done tt s1 o -> 0 <= i < 10 -> dev_at (midi_of s1) i d -> d_midi d = c -> undisturbed r mw i s1 later s2 ->
  (1 <= frames later <= 150 -> shows_program (scr_of s2) i v) /\ (151 <= frames later -> empty (scr_of s2) 11 (row i) 7).
Proof.
  intros W Hm E Hi Hd Hc U. assert (Ho : uop_ok (UMsg (MProgram c v))) by (split; [exact Hm|intros [b Hb]; discriminate Hb]).
  assert (C := column_after r mw hw mem ops s0 tr _ s1 o i d later s2 (mkChange 1 0 v 150) W Ho E Hi Hd
    (ex_intro _ c (ex_intro _ d (conj (or_intror (ex_intro _ v eq_refl)) (conj Hd Hc)))) (fun _ => eq_refl) eq_refl ltac:(discriminate) U).
  unfold aged in C. split; intros Hf.
  - replace (frames later <=? 150) with true in C by lia. destruct C as (_ & _ & _ & C). destruct Hm as (_ & Hv). eapply program_text; [exact Hv|]. apply C; cbn; lia.
  - replace (frames later <=? 150) with false in C by lia. destruct C as (_ & _ & C & _). apply C. reflexivity.
Qed.

(** ** The panel *)
Lemma sel_filter o : forall a, fold_left sel_step o a = fold_left sel_step (filter ui_ev o) a.
Proof. induction o as [|e o IH]; intros a; [reflexivity|]. destruct e; cbn; apply IH. Qed.
Lemma selected_app tr o : selected (tr ++ o) = fold_left sel_step o (selected tr).
Proof. unfold selected. rewrite fold_left_app. reflexivity. Qed.
Lemma step_sel mw op s s' o : step_post mw op s s' o -> sel (y_ui s') = fold_left sel_step o (sel (y_ui s)).
Proof.
  destruct op as [m|delta c log]; [intros P; apply P|]. intros (u & Cp & (_ & _ & _ & _ & _ & (F1 & F2 & _) & _)). unfold sel at 1. rewrite F1, F2. apply Cp.
Qed.
Lemma mute_selected o : Forall mute o -> forall a, fold_left sel_step o a = a.
Proof. induction 1 as [|e o He _ IH]; intros a; [reflexivity|]. destruct e; cbn in He |- *; try contradiction; apply IH. Qed.
Lemma watched_sel r mw hw mem ops s tr : watched r mw hw mem ops s tr -> sel (y_ui s) = selected tr.
Proof.
  revert s tr. induction ops as [|op ops IH] using rev_ind; intros s tr H.
  - apply watched_nothing in H as (_ & S & M). unfold selected. fold sel_step. change (sel (y_ui s) = fold_left sel_step tr None). rewrite (mute_selected _ M).
    destruct S as (_ & _ & _ & _ & _ & _ & _ & _ & _ & _ & Q & _). unfold sel. rewrite Q. reflexivity.
  - apply watched_step in H as (s1 & tr1 & o1 & H1 & _ & _ & _ & -> & _ & P & _). rewrite selected_app, <- (IH s1 tr1 H1). eapply step_sel; exact P.
Qed.
(** Which messages switch it. *)
Theorem panel_switched r mw hw mem ops op s tr s' tr' : watched r mw hw mem ops s tr -> watched r mw hw mem (ops ++ [op]) s' tr' ->
  selected tr' = match op with UMsg (MCc c 83 v) => if md_nogm (midi_of s) then selected tr else if 64 <=? v then Some c else None | _ => selected tr end.
Proof.
  intros W W'. apply watched_step in W' as (s1 & tr1 & o & W1 & _ & _ & Ho & -> & _ & _ & R).
  assert (E : s1 = s /\ tr1 = tr). { destruct W as (_ & _ & _ & W), W1 as (_ & _ & _ & W1). rewrite W in W1. apply done_inj in W1 as (_ & -> & ->). auto. }
  destruct E as [-> ->]. rewrite selected_app, sel_filter, R. destruct op as [m|delta c log]; [|reflexivity].
  destruct m as [c p v|c p|c k v|c v|c b|data| | |b]; try reflexivity. cbn [heard message reports]. rewrite fold_left_app. cbn [fold_left sel_step].
  destruct (Z.eqb_spec k 83) as [->|N].
  - cbn [andb]. destruct (md_nogm (midi_of s)); cbn [negb fold_left sel_step]; [reflexivity|]. destruct (64 <=? v); reflexivity.
  - cbn [andb fold_left]. symmetry. destruct k as [|k|k]; try reflexivity. repeat (destruct k as [k|k|]; try reflexivity). contradiction.
Qed.
Theorem panel_hidden r mw hw mem ops s tr : watched r mw hw mem ops s tr -> selected tr = None -> panel_blank (scr_of s) /\ no_diagram s.
Proof.
  intros H E. rewrite <- (watched_sel _ _ _ _ _ _ _ H) in E. assert (A := watched_alive _ _ _ _ _ _ _ H). destruct A as (_ & (_ & _ & _ & _ & (_ & _ & P & _) & _) & _).
  unfold sel in E. destruct (q_show (u_panel (y_ui s))); [discriminate|]. destruct (P eq_refl) as [P1 P2]. split; [|exact P2].
  intros x y Hx Hy. apply P1. region_tac. decide_all.
Qed.
Definition quiet (e : event) : Prop := match e with EvUi _ _ => False | _ => True end.
Lemma quiet_dec o : Forall quiet o \/ Exists (fun e => exists c b, e = EvUi c b) o.
Proof. induction o as [|e o [IH|IH]]; [left; constructor| |right; right; exact IH]. destruct e; try (left; constructor; [exact I|exact IH]). right. left. eauto. Qed.
Lemma quiet_selected o : Forall quiet o -> forall a, fold_left sel_step o a = a.
Proof. induction 1 as [|e o He _ IH]; intros a; [reflexivity|]. destruct e; cbn in He |- *; try contradiction; apply IH. Qed.
Lemma loud_fresh m o u u' s : calls_post m o u u' -> Exists (fun e => exists c b, e = EvUi c b) o -> fresh s u'.
Proof.
  intros (_ & _ & _ & D & _) X Sh Di. destruct (D Di) as [_ N]. exfalso. apply Exists_exists in X as (e & He & c & b & ->). rewrite Forall_forall in N. exact (N _ He Logic.I).
Qed.
Lemma fresh_since r mw hw mem a b s1 tr1 s tr : watched r mw hw mem a s1 tr1 -> watched r mw hw mem (a ++ b) s tr -> Forall (fun op => ~ is_reset op) b ->
  exists tr2, tr = tr1 ++ tr2 /\ (Forall quiet tr2 \/ fresh (synth_of s) (y_ui s)).
Proof.
  intros W1. assert (Hr : rom_ok r) by apply W1. revert s tr. induction b as [|op b IH] using rev_ind; intros s tr W Nr.
  - rewrite app_nil_r in W. exists []. destruct W as (_ & _ & _ & W), W1 as (_ & _ & _ & W1). rewrite W in W1. apply done_inj in W1 as (_ & _ & ->). rewrite app_nil_r. auto.
  - rewrite app_assoc in W. apply watched_step in W as (s2 & tr2 & o & W2 & A2 & A & Ho & -> & E & P & R).
    apply Forall_app in Nr as [Nr Nr1]. destruct (IH s2 tr2 W2 Nr) as (t & -> & J). exists (t ++ o). split; [symmetry; apply app_assoc|].
    destruct (heard_ok op Ho) as [Oa _]. assert (Nm : message (heard op) <> MReset).
    { apply Forall_inv in Nr1. destruct op as [m|]; cbn; [intros ->; exact (Nr1 eq_refl)|discriminate]. }
    assert (F : forall u, calls_post (midi_of s) o (y_ui s2) u -> fresh (synth_of s2) (y_ui s2) -> fresh (synth_of s) u).
    { intros u Cp. eapply (fresh_step r Hr (heard op) (y_app s2) (y_app s) o u); [apply A2|exact Oa|exact Nm|apply A2|exact E|exact Cp]. }
    destruct (quiet_dec o) as [Q|L].
    + destruct J as [J|J]; [left; apply Forall_app; auto|right]. destruct op as [m|delta c log]; [apply F; assumption|].
      destruct P as (u & Cp & (_ & K & _)). apply K, F; assumption.
    + right. destruct op as [m|delta c log]; [eapply loud_fresh; eassumption|]. destruct P as (u & Cp & (_ & K & _)). apply K. eapply loud_fresh; eassumption.
Qed.
Lemma first_found m c n : midi_ok m -> first_fm m c n -> get_fm_chan_for_midi_chan (firstn 6 (md_dev m)) c = n.
Proof.
  intros (L & _ & D & _) (Hn & (d & Hd & Hc) & Lo).
  assert (G : forall (l : list dev) k, (forall i x, zget l i = Some x -> dev_at m (k + i) x /\ k + i < 6) -> 0 <= k <= n -> n < k + Z.of_nat (List.length l) ->
    get_fm_chan_for_midi_chan l c = n).
  { induction l as [|x l IH]; intros k Hl Hk Hlen; [cbn in Hlen; lia|]. cbn [get_fm_chan_for_midi_chan].
    destruct (Hl 0 x eq_refl) as [Hx Hk6]. rewrite Z.add_0_r in Hx, Hk6. destruct (Z.eq_dec k n) as [->|N].
    - unfold dev_at in Hd, Hx. assert (x = d) by congruence. subst x. rewrite Hc, Z.eqb_refl.
      destruct (D n d Hd) as ((S1 & _) & _). apply S1. lia.
    - assert (Nx := Lo k x ltac:(lia) Hx). replace (d_midi x =? c) with false by lia. apply (IH (k + 1)).
      + intros i y Hy. replace (k + 1 + i) with (k + (i + 1)) by lia. apply Hl. assert (Ry := zget_Some _ _ _ Hy). rewrite MidiProofs.zget_cons. replace (i + 1 =? 0) with false by lia. replace (i + 1 - 1) with i by lia. exact Hy.
      + lia.
      + cbn [List.length] in Hlen. lia. }
  apply (G _ 0).
  - intros i x Hx. apply zget_firstn in Hx as [Hx Hi]. split; [exact Hx|]. lia.
  - lia.
  - rewrite firstn_length, L. cbn. lia.
Qed.
Lemma padr_number v : 0 <= v < 16 -> number (padr 2 (dec (v + 1))) = Some (v + 1) /\ List.length (padr 2 (dec (v + 1))) = 2%nat.
Proof.
  intros H. assert (Q := below 16 (fun v => match number (padr 2 (dec (v + 1))) with Some w => w =? v + 1 | None => false end && (List.length (padr 2 (dec (v + 1))) =? 2)%nat)
    eq_refl v H). cbv beta in Q. apply andb_prop in Q as [Q1 Q2]. apply Nat.eqb_eq in Q2. destruct (number _) as [w|]; [|discriminate]. apply Z.eqb_eq in Q1. subst w. auto.
Qed.
Lemma digit_number v : 0 <= v < 8 -> number (dec v) = Some v /\ List.length (dec v) = 1%nat.
Proof.
  intros H. assert (Q := below 8 (fun v => match number (dec v) with Some w => w =? v | None => false end && (List.length (dec v) =? 1)%nat) eq_refl v H).
  cbv beta in Q. apply andb_prop in Q as [Q1 Q2]. apply Nat.eqb_eq in Q2. destruct (number _) as [w|]; [|discriminate]. apply Z.eqb_eq in Q1. subst w. auto.
Qed.
Lemma field_chan scr x y v t : 0 <= v < 16 -> chan_number v = Some t -> text_at scr t x y -> shows_number scr x y 2 (v + 1).
Proof.
  intros Hv E T. destruct (padr_number v Hv) as [N L]. unfold chan_number, fits in E. rewrite L in E. injection E as <-. eapply text_number; eassumption.
Qed.
Lemma field_digit scr x y v t : 0 <= v < 8 -> format_num v = Some t -> text_at scr t x y -> shows_number scr x y 1 v.
Proof.
  intros Hv E T. destruct (digit_number v Hv) as [N L]. unfold format_num, fits in E. rewrite L in E. injection E as <-. eapply text_number; eassumption.
Qed.
Lemma nth_name (l : list string) (v : Z) t : 0 <= v < Z.of_nat (List.length l) -> zget (map str l) v = Some t -> t = str (nth (Z.to_nat v) l EmptyString).
Proof.
  intros H E. rewrite zget_map in E. destruct (zget l v) as [x|] eqn:Ex; [|discriminate]. injection E as <-. f_equal. unfold zget in Ex.
  destruct (v <? 0); [discriminate|]. symmetry. apply nth_error_nth. exact Ex.
Qed.
Theorem panel_shown r mw hw mem a b delta cm log s1 tr1 s tr2 c n ch :
  watched r mw hw mem a s1 tr1 -> watched r mw hw mem (a ++ b ++ [UFrame delta cm log]) s (tr1 ++ tr2) -> Forall (fun op => ~ is_reset op) b ->
  selected tr2 = Some c -> first_fm (midi_of s) c n -> zget (s_chans (synth_of s)) n = Some ch ->
  shows_channel (scr_of s) (synth_of s) c n ch /\ only_diagram s (c_alg ch) /\
  Forall (fun h : Z * Z * string => shows (scr_of s) (fst (fst h)) (snd (fst h)) (snd h)) panel_headings.
Proof.
  intros W1 W Nr Es Hf Hch.
  destruct (fresh_since r mw hw mem a (b ++ [UFrame delta cm log]) s1 tr1 s (tr1 ++ tr2) W1 W) as (t & Et & J).
  { apply Forall_app. split; [exact Nr|]. constructor; [intros X; discriminate X|constructor]. }
  apply app_inv_head in Et. subst t.
  assert (F : fresh (synth_of s) (y_ui s)). { destruct J as [Q|F]; [|exact F]. rewrite <- (app_nil_l tr2), selected_app, (quiet_selected _ Q) in Es. discriminate. }
  assert (Sl := watched_sel _ _ _ _ _ _ _ W).
  assert (Sc : selected (tr1 ++ tr2) = Some c).
  { rewrite selected_app. destruct J as [Q|_]; [rewrite <- (app_nil_l tr2), selected_app, (quiet_selected _ Q) in Es; discriminate|].
    clear -Es. revert Es. unfold selected. generalize (fold_left (fun (a : option Z) (e : event) => match e with EvUi c b => if b =? 0 then None else Some c | _ => a end) tr1 None) as z.
    change (fun (a : option Z) (e : event) => match e with EvUi c b => if b =? 0 then None else Some c | _ => a end) with sel_step.
    assert (G : forall l x z, fold_left sel_step l x = Some c -> x = None \/ x = z -> fold_left sel_step l z = Some c).
    { induction l as [|e l IH]; intros x z; cbn [fold_left].
      - intros E [->| ->]; [discriminate|exact E].
      - intros E H. destruct e; try exact (IH _ _ E H). exact E. }
    intros z E. apply (G _ _ z E). left. reflexivity. }
  rewrite Sc in Sl. unfold sel in Sl. destruct (q_show (u_panel (y_ui s))) eqn:Sh; [|discriminate]. injection Sl as Sm.
  assert (A := watched_alive _ _ _ _ _ _ _ W).
  rewrite app_assoc in W. apply watched_step in W as (s2 & tr & o & _ & _ & _ & Ho & _ & _ & P & _).
  destruct P as (u & Cp & (_ & _ & _ & _ & _ & (P1 & P2 & P3) & _)). cbv zeta in P3. rewrite Sh in P1. rewrite Sm in P2.
  assert (Mo : midi_ok (midi_of s)) by apply A. rewrite <- P2, (first_found _ c n Mo Hf) in P3. destruct (P3 (eq_sym P1)) as [Qf Qd]; [unfold UNKNOWN_FM_CHANNEL; destruct Hf; lia|].
  destruct (F Sh Qd) as (ch' & E1 & E2 & E3 & E4). rewrite Qf, Hch in E1. injection E1 as <-. rewrite Sm, Qf in E2.
  destruct A as (Ai & (_ & _ & _ & _ & (PA & PB & _ & PH & PF) & _ & _ & _ & _ & Rm) & _). specialize (PH Sh).
  assert (Fo : q_force (u_panel (y_ui s)) = false). { destruct (q_force (u_panel (y_ui s))); [|reflexivity]. specialize (PB eq_refl). congruence. }
  destruct (PF Sh Fo) as (Fv & Fo' & Fd). unfold diagram in Fd.
  assert (So : synth_ok (synth_of s)) by apply Ai. destruct So as (So1 & So2 & So3 & So4 & _).
  assert (Co := Forall_zget _ _ _ _ So4 Hch). destruct Co as (C1 & C2 & C3 & C4 & C5 & _ & _ & C8 & C9).
  assert (Rn : 0 <= n < 6) by apply Hf. rewrite Sm in Rm.
  split; [|split].
  - rewrite E2 in Fv. fold (scr_of s) in *.
    unfold shows_channel.
    split. { destruct (Fv 0 c eq_refl) as (f & t & Ef & Et & T). injection Ef as <-. exact (field_chan _ _ _ _ _ Rm Et T). }
    split. { destruct (Fv 1 n eq_refl) as (f & t & Ef & Et & T). injection Ef as <-. assert (Rn' : 0 <= n < 16) by lia. exact (field_chan _ _ _ _ _ Rn' Et T). }
    split. { destruct (Fv 2 _ eq_refl) as (f & t & Ef & Et & T). injection Ef as <-. exact (field_digit _ _ _ _ _ C1 Et T). }
    split. { destruct (Fv 3 _ eq_refl) as (f & t & Ef & Et & T). injection Ef as <-. exact (field_digit _ _ _ _ _ C2 Et T). }
    split. { destruct (Fv 4 _ eq_refl) as (f & t & Ef & Et & T). injection Ef as <-. cbn in Et. injection Et as <-. apply text_shows.
      assert (Es' : c_st ch = 0 \/ c_st ch = 1 \/ c_st ch = 2 \/ c_st ch = 3) by lia. destruct Es' as [Ev|[Ev|[Ev|Ev]]]; rewrite Ev in T |- *; exact T. }
    split. { destruct (Fv 5 _ eq_refl) as (f & t & Ef & Et & T). injection Ef as <-. apply text_shows. unfold lfo_name. cbn [k_format] in Et.
      destruct (s_lfoen (synth_of s) =? 0); [injection Et as <-; exact T|].
      replace (u8 (s_lfofreq (synth_of s) + 1)) with (s_lfofreq (synth_of s) + 1) in Et by (unfold u8; rewrite Z.mod_small; lia).
      assert (Ef : exists v, s_lfofreq (synth_of s) = v /\ 0 <= v < 8) by eauto. destruct Ef as (v & Ev & Hv). rewrite Ev in *.
      unfold LFO_TEXT in Et. cbn [map] in Et. rewrite MidiProofs.zget_cons in Et. replace (v + 1 =? 0) with false in Et by lia. replace (v + 1 - 1) with v in Et by lia.
      apply (nth_name ["4Hz  "; "5.5Hz"; "6Hz  "; "6.5Hz"; "7Hz  "; "10Hz "; "48Hz "; "72Hz "]%string v t) in Et; [rewrite Et in T; exact T|cbn; lia]. }
    split. { destruct (Fv 6 _ eq_refl) as (f & t & Ef & Et & T). injection Ef as <-. apply text_shows.
      apply (nth_name ["0%  "; "3%  "; "6%  "; "10% "; "14% "; "20% "; "40% "; "80% "]%string (c_fms ch) t) in Et; [rewrite Et in T; exact T|cbn; lia]. }
    split. { destruct (Fv 7 _ eq_refl) as (f & t & Ef & Et & T). injection Ef as <-. apply text_shows.
      apply (nth_name ["0dB "; "1dB "; "6dB "; "12dB"]%string (c_ams ch) t) in Et; [rewrite Et in T; exact T|cbn; lia]. }
    intros k op Hk. rewrite E3 in Fo'.
    assert (Oo := Forall_zget _ _ _ _ C9 Hk). assert (Rk := zget_Some _ _ _ Hk).
    destruct Oo as (O1 & O2 & O3 & O4 & O5 & O6 & O7 & O8 & O9 & O10 & O11).
    assert (L : forall i f, zget opFields i = Some f -> 0 <= snd f op < 128 -> shows_number (scr_of s) (23 + 4 * k) (11 + i) 3 (snd f op)).
    { intros i f Ef Hv. assert (T := Fo' _ _ _ (op_values_entry ch i k f op Ef Hk)). unfold op_cells, op_text, OP_HEADING_X, OP_BASE_Y in T.
      replace (1 + (FM_HEADING_X + 4 + k * 4)) with (23 + 4 * k) in T by (unfold FM_HEADING_X; lia).
      replace (1 + (BASE_Y + 7 + i + 1)) with (11 + i) in T by (unfold BASE_Y; lia).
      eapply text_number; [|apply number_pad, Hv|exact T]. exact (op_len _). }
    unfold shows_operator. cbv zeta.
    split; [exact (L 0 _ eq_refl ltac:(cbn; lia))|]. split; [exact (L 1 _ eq_refl ltac:(cbn; lia))|]. split; [exact (L 2 _ eq_refl ltac:(cbn; lia))|].
    split; [exact (L 3 _ eq_refl ltac:(cbn; lia))|]. split; [exact (L 4 _ eq_refl ltac:(cbn; lia))|]. split; [exact (L 5 _ eq_refl ltac:(cbn; lia))|].
    split; [exact (L 6 _ eq_refl ltac:(cbn; lia))|]. split; [exact (L 7 _ eq_refl ltac:(cbn; lia))|]. split; [exact (L 8 _ eq_refl ltac:(cbn; lia))|].
    split; [exact (L 9 _ eq_refl ltac:(cbn; lia))|]. exact (L 10 _ eq_refl ltac:(cbn; lia)).
  - intros k Hk. unfold diagrams. rewrite <- E4. apply Fd, Hk.
  - eapply Forall_impl; [|exact PH]. intros h Hh. apply text_shows, Hh.
Qed.

(** ** The screen never stops the interface *)
Lemma heard_65 ops : Forall (fun op => forall m, op = UMsg m -> ~ is_cc 65 m) ops -> Forall (fun op => ~ is_cc 65 op) (map message (map heard ops)).
Proof.
  induction 1 as [|op ops H _ IH]; [constructor|]. cbn [map]. constructor; [|exact IH]. destruct op as [m|d c l]; cbn; [apply H; reflexivity|].
  intros (c' & v & X). discriminate X.
Qed.
Lemma on_keys r hw mem ops a tr : history r hw mem ops a tr -> Forall (fun op => ~ is_cc 65 op) (map message ops) -> ~ off_keyboard (a_midi a).
Proof.
  intros H N (i & d & Hi & Hd & On & Hp). apply history_played in H as (_ & cs & B & _).
  destruct (MidiHistProofs.on_keyboard_boot (MCallback true :: map message ops) (a_midi a) cs) as [_ [_ K]]; [|exact B|].
  - constructor; [intros (c' & v & X); discriminate X|exact N].
  - specialize (K i d Hd On). lia.
Qed.
Theorem screen_harmless r mw hw mem ops a tr : rom_ok r -> mem_ok mem -> Forall uop_ok ops ->
  Forall (fun op => forall m, op = UMsg m -> ~ is_cc 65 m) ops -> app_boot r hw mem (map heard ops) = Done tt a tr ->
  exists u, watched r mw hw mem ops (mkSys a u) tr.
Proof.
  intros Hr Hm. revert a tr. induction ops as [|op ops IH] using rev_ind; intros a tr Ho N E.
  - destruct (u_main_ok r mw hw mem Hr Hm) as (a1 & u & o & E1 & P & _). assert (E2 := boot_nothing _ _ _ _ _ P). cbn [map] in E. rewrite E in E2.
    apply done_inj in E2 as (_ & -> & ->). exists u. split; [exact Hr|]. split; [exact Hm|]. split; [constructor|].
    unfold u_boot. rewrite <- (app_nil_r o). eapply bind_done; [exact E1|reflexivity].
  - apply Forall_app in Ho as [Ho Ho1]. apply Forall_app in N as [N N1]. apply Forall_inv in Ho1. rewrite map_app in E. cbn [map] in E.
    apply boot_snoc in E as (a1 & o1 & o2 & E1 & E2 & ->). destruct (IH a1 o1 Ho N E1) as (u & W).
    assert (K := u_step_ok r Hr mw op (mkSys a1 u) (watched_alive _ _ _ _ _ _ _ W) Ho1). cbn [y_app] in K.
    destruct (u_step r mw op (mkSys a1 u)) as [[] s' o|f] eqn:Es.
    + destruct K as (_ & K & _). rewrite E2 in K. apply done_inj in K as (_ & -> & ->). exists (y_ui s'). replace (mkSys (y_app s') (y_ui s')) with s' by (destruct s'; reflexivity).
      eapply watched_snoc; eassumption.
    + exfalso. destruct K as [(f' & K)|(a2 & o & delta & c & log & -> & K & Off)]; [rewrite E2 in K; discriminate|]. cbn [heard] in E2. rewrite E2 in K. apply done_inj in K as (_ & <- & <-).
      assert (Hh : history r hw mem (map heard ops ++ [AFrame]) a (o1 ++ o2)).
      { eapply history_snoc; [exact (watched_history _ _ _ _ _ _ _ W)|exact I|exact E2]. }
      refine (on_keys _ _ _ _ _ _ Hh _ Off). rewrite map_app. apply Forall_app. split; [apply heard_65, N|]. constructor; [|constructor]. cbn.
      intros (c' & v & X). discriminate X.
Qed.
Theorem screen_passive r mw hw mem ops s tr : watched r mw hw mem ops s tr -> history r hw mem (map heard ops) (y_app s) tr.
Proof. apply watched_history. Qed.
(** With the failing messages of C48 also excluded nothing ever fails. *)
Theorem screen_total r mw hw mem ops : rom_ok r -> mem_ok mem -> Forall uop_ok ops ->
  Forall (fun op => forall m, op = UMsg m -> ~ is_cc 65 m /\ ~ is_cc 78 m /\ ~ odd_envelope m) ops -> exists s tr, watched r mw hw mem ops s tr.
Proof.
  intros Hr Hm Ho N. assert (K : forall m, In (AMsg m) (map heard ops) -> ~ is_cc 78 m /\ ~ odd_envelope m).
  { intros m Hi. apply in_map_iff in Hi as (op & E & Hi). rewrite Forall_forall in N. destruct op as [m'|]; [|discriminate E]. injection E as ->. apply (N _ Hi m eq_refl). }
  destruct (AppNoteProofs.history_dacless r hw mem (map heard ops) Hr Hm) as (a & tr & _ & _ & _ & E).
  - apply Forall_map. eapply Forall_impl; [|exact Ho]. intros op H. apply heard_ok, H.
  - intros m Hi. apply (K m Hi).
  - intros m Hi. apply (K m Hi).
  - destruct (screen_harmless r mw hw mem ops a tr Hr Hm Ho) as (u & W); [|exact E|eauto]. eapply Forall_impl; [|exact N]. intros op H m Em. apply (H m Em).
Qed.

(** ** Power-on *)
Lemma pro_iff hw : hw_ok hw -> (pro_detected hw = true <-> sees_pro hw).
Proof.
  intros (_ & H). unfold pro_detected, sees_pro. rewrite Z.eqb_eq.
  assert (E : Z.land (hw_stat hw) 0xFFF0 = 16 * (hw_stat hw / 16)).
  { change 0xFFF0 with (Z.shiftl (Z.ones 12) 4). 
    replace (Z.land (hw_stat hw) (Z.shiftl (Z.ones 12) 4)) with (Z.shiftl (Z.land (Z.shiftr (hw_stat hw) 4) (Z.ones 12)) 4).
    - rewrite Z.land_ones, Z.shiftl_mul_pow2 by lia. rewrite Z.mod_small; [rewrite Z.shiftr_div_pow2 by lia; change (2 ^ 4) with 16; lia|].
      rewrite Z.shiftr_div_pow2 by lia. change (2 ^ 4) with 16. change (2 ^ 12) with 4096. split; [apply Z.div_pos; lia|apply Z.div_lt_upper_bound; lia].
    - apply Z.bits_inj'. intros n Hn. rewrite Z.land_spec, !Z.shiftl_spec by lia. destruct (Z.ltb_spec n 4) as [L|L].
      + rewrite !(Z.testbit_neg_r _ (n - 4)) by lia. rewrite andb_false_r. reflexivity.
      + rewrite Z.land_spec, Z.shiftr_spec by lia. replace (n - 4 + 4) with n by lia. reflexivity. }
  rewrite E. lia.
Qed.
Lemma x7_iff hw : hw_ok hw -> (x7_detected hw = true <-> sees_x7 hw).
Proof.
  intros (H & _). unfold x7_detected, sees_x7. rewrite Z.shiftr_div_pow2 by lia. change (2 ^ 8) with 256. unfold u8.
  rewrite Z.mod_small by (split; [apply Z.div_pos; lia|apply Z.div_lt_upper_bound; lia]). rewrite orb_true_iff, !Z.eqb_eq. reflexivity.
Qed.
Theorem devices_shown r mw hw mem ops s tr : watched r mw hw mem ops s tr -> hw_ok hw -> shows_mode (scr_of s) DISCOVERY ->
  (sees_pro hw -> shows_attached (scr_of s) PIC_WAIT_EDPRO) /\
  (~ sees_pro hw -> sees_x7 hw -> shows_attached (scr_of s) PIC_WAIT_EDX7) /\
  (~ sees_pro hw -> ~ sees_x7 hw -> empty (scr_of s) 17 26 5).
Proof.
  intros W Hh Hs. destruct (attached_shown _ _ _ _ _ _ _ W Hs) as (A & B & C). assert (P := pro_iff hw Hh). assert (X := x7_iff hw Hh).
  assert (P' : ~ sees_pro hw -> pro_detected hw = false) by (intros N; destruct (pro_detected hw); [destruct N; apply P; reflexivity|reflexivity]).
  split; [intros Hp; apply A, P, Hp|]. split.
  - intros N Hx. apply B; [apply P', N|apply X, Hx].
  - intros N Nx. apply C; [apply P', N|]. destruct (x7_detected hw); [destruct Nx; apply X; reflexivity|reflexivity].
Qed.
Theorem power_on_screen r mw hw mem s tr : watched r mw hw mem [] s tr ->
  (forall i, 0 <= i < 10 -> no_note (scr_of s) i /\ empty (scr_of s) 11 (row i) 7 /\ shows_number (scr_of s) 4 (row i) 2 (i + 1)) /\
  shows_mode (scr_of s) DISCOVERY /\ special_mark (scr_of s) false /\ routing_icon s = false /\ panel_blank (scr_of s) /\ no_diagram s.
Proof.
  intros W. assert (W' := W). apply watched_nothing in W' as (_ & S & M). destruct S as ((In & Ic & Im & Ik & _ & _ & Ii & _) & Mp & S1 & S2 & _ & S4 & S5 & _ & _ & S8 & _).
  split; [|split; [apply (waiting_shown _ _ _ _ _ _ _ W); constructor|]].
  - intros i Hi. destruct In as (_ & In), Ic as (_ & Ic).
    assert (Ri : 0 <= i < Z.of_nat 10) by lia.
    split; [|split].
    + assert (N := In i 0). rewrite S1, (zget_repeat_in 0 10 i Ri) in N. exact (N eq_refl).
    + assert (N := Ic i (mkChange 0 0 0 0)). rewrite S2, (zget_repeat_in (mkChange 0 0 0 0) 10 i Ri) in N. apply (N eq_refl). reflexivity.
    + assert (G : zget (mapped booted) i = Some i).
      { destruct (phys_dev booted i) as (d & Hd); [apply MidiEffectProofs.booted_ok|exact Hi|]. destruct (MidiHistProofs.booted_dev i d Hd) as (_ & _ & E).
        unfold mapped. rewrite zget_map. assert (P : zget (physical booted) i = Some d) by (apply physical_get; split; [exact Hd|lia]). rewrite P, E. reflexivity. }
      assert (T := map_shown (scr_of s) i i ltac:(right; lia) (Mp i i G)). unfold shows_mapping in T. replace (i =? 0x7F) with false in T by lia. exact T.
  - split; [unfold special_mark; unfold inv_mark in Ik; rewrite S5 in Ik; exact Ik|]. split; [unfold routing_icon; congruence|].
    apply (panel_hidden _ _ _ _ _ _ _ W). rewrite <- (app_nil_l tr), selected_app. apply (mute_selected _ M).
Qed.
