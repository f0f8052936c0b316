From Verif Require Import Base BaseLemmas RingBufModel RingBufSpec RingBufProofs SchedulerModel PsgModel PsgSpec SynthModel SynthSpec MidiModel MidiSpec RxModel RxSpec RxProofs SerialModel SerialSpec SerialProofs.
From Verif Require Import DevModel DevSpec DevProofs AppModel AppSpec AppProofs AppToneProofs AppSoundProofs LibraryProofs SoundSpec SongSpec SongProofs SongNoteProofs SongPlayProofs SongReleaseProofs AppNoteProofs ChipProofs MidiHistProofs MidiEqProofs.
From Verif Require Import AppKeyProofs MachineModel MachineSpec MachineProofs MachineRunProofs MachineWireProofs.
Local Notation frames := frames_done.

(** ** Reading the specifications off the messages *)
Lemma fold_msgs {A} (f : A -> mop -> A) : (forall h, f h MTick = h) -> forall ops x, fold_left f (map message ops) x = fold_left f (msgs ops) x.
Proof.
  intros T. induction ops as [|[m|] ops IH]; intros x; [reflexivity| |]; cbn [map message fold_left msgs flat_map Datatypes.app].
  - apply IH.
  - rewrite T. apply IH.
Qed.
Lemma held_msgs ops : MidiSpec.held (map message ops) = MidiSpec.held (msgs ops).
Proof. apply fold_msgs. reflexivity. Qed.
Lemma settings_msgs ops : settings (map message ops) = settings (msgs ops).
Proof. apply fold_msgs. reflexivity. Qed.
Lemma tuned_msgs ops : tuned (map message ops) = tuned (msgs ops).
Proof. apply fold_msgs. reflexivity. Qed.
Lemma bent_msgs ops c p : bent (map message ops) c p = bent (msgs ops) c p.
Proof. unfold bent. rewrite settings_msgs. reflexivity. Qed.
Lemma pitched_msgs ops c p : pitched (map message ops) c p = pitched (msgs ops) c p.
Proof. unfold pitched. rewrite bent_msgs, tuned_msgs. reflexivity. Qed.
Lemma order_msgs ops : drums_in_order (map message ops) <-> drums_in_order (msgs ops).
Proof. unfold drums_in_order. rewrite fold_msgs; [tauto|]. intros [k|]; reflexivity. Qed.
Lemma without_msgs P ops : without P ops <-> forall m, In m (msgs ops) -> ~ P m.
Proof. split; intros H m Hm; apply H, in_msgs, Hm. Qed.
Lemma without_told P ops l : msgs ops = meanings [] l -> without P (told l) -> without P ops.
Proof. intros E W. apply without_msgs. rewrite E. assert (W' := proj1 (without_msgs P (told l)) W). unfold told in W'. rewrite msgs_map in W'. exact W'. Qed.
Lemma message_told l : map message (told l) = meanings [] l.
Proof. unfold told. rewrite map_map. apply map_id. Qed.
Lemma meanings_app a b : meanings [] (a ++ b) = meanings [] a ++ meanings [] b.
Proof. apply flat_map_app. Qed.

Lemma msgs_split ops a x : msgs ops = a ++ [x] -> exists before tail, ops = before ++ AMsg x :: tail /\ msgs before = a /\ msgs tail = [].
Proof.
  induction ops as [|op ops IH] using rev_ind; [intros H; symmetry in H; apply app_eq_nil in H as [_ H]; discriminate|].
  rewrite msgs_app. destruct op as [m|]; cbn [msgs flat_map]; rewrite ?app_nil_r; intros H.
  - apply app_inj_tail in H as [H <-]. exists ops, []. auto.
  - destruct (IH H) as (b & t & -> & B & T). exists b, (t ++ [AFrame]). rewrite <- app_assoc. split; [reflexivity|]. split; [exact B|]. rewrite msgs_app, T. reflexivity.
Qed.
Lemma all_frames tail : msgs tail = [] -> Forall (fun op => op = AFrame) tail.
Proof. induction tail as [|[m|] t IH]; intros H; [constructor|discriminate|constructor; auto]. Qed.
Lemma all_msgs more : frames more = 0 -> more = map AMsg (msgs more).
Proof.
  assert (P : forall l, 0 <= frames l) by (induction l as [|[m|] l IH]; cbn [frames_done]; lia).
  induction more as [|[m|] t IH]; intros H; [reflexivity| |cbn [frames_done] in H; specialize (P t); lia].
  cbn [msgs flat_map map Datatypes.app]. f_equal. exact (IH H).
Qed.

(** ** Frames without portamento do not touch the FM chip *)
Lemma quiet_frame r hw mem ops s0 tr0 s o : history r hw mem ops s0 tr0 -> without (is_cc 65) ops -> app_step r AFrame s0 = Done tt s o ->
  Forall (fun e => psg_event e = true) o.
Proof.
  intros H W E. destruct (history_played _ _ _ _ _ _ H) as (_ & cs & B & _).
  destruct (no_glide_boot _ _ _ (proj2 (Forall_forall _ _) (plain_messages _ _ (proj1 (cc_plain 65)) (proj2 (cc_plain 65)) W)) B) as (Hm & _ & Hg).
  cbn [app_step] in E. apply bind_inv in E as ([] & s1 & o1 & o2 & E1 & E2 & ->).
  assert (O2 : o2 = []).
  { assert (M1 : a_midi s1 = a_midi s0).
    { unfold app_dev, lift in E1. destruct (ps r PsgModel.PTick (a_dev s0)) as [[] d o'|f]; [|discriminate]. injection E1 as <- _. reflexivity. }
    unfold app_midi in E2. rewrite M1 in E2. cbn [midi_step] in E2. rewrite (midi_tick_eq _ Hm) in E2.
    replace (flat_map (tick_calls (md_ch (a_midi s0))) (md_dev (a_midi s0))) with (@nil dcall) in E2.
    - cbn in E2. injection E2 as _ <-. reflexivity.
    - symmetry. clear E2. induction (md_dev (a_midi s0)) as [|d t IH]; [reflexivity|]. cbn [flat_map]. rewrite IH, app_nil_r. unfold tick_calls.
      destruct (zget (md_ch (a_midi s0)) (d_midi d)) as [c|] eqn:Ec; [|reflexivity]. rewrite (Hg _ _ Ec), andb_false_r. reflexivity. }
  subst o2. rewrite app_nil_r. unfold app_dev, lift in E1. destruct (ps r PsgModel.PTick (a_dev s0)) as [[] d o'|f] eqn:Ep; [|discriminate]. injection E1 as _ <-.
  unfold ps, lift in Ep. destruct (psg_step (rom_pal r) (rom_envs r) PsgModel.PTick (v_psg (a_dev s0))) as [[] x o2|f] eqn:Es; [|discriminate]. injection Ep as _ <-.
  exact (psg_emits _ _ _ _ _ _ _ Es).
Qed.
Lemma quiet_frames r hw mem ops tail : without (is_cc 65) ops -> msgs tail = [] -> forall s0 tr0 s tr, history r hw mem ops s0 tr0 -> history r hw mem (ops ++ tail) s tr ->
  exists o, tr = tr0 ++ o /\ Forall (fun e => psg_event e = true) o.
Proof.
  intros W. induction tail as [|op tail IH] using rev_ind; intros T s0 tr0 s tr H0 H.
  - rewrite app_nil_r in H. destruct (history_same _ _ _ _ _ _ _ _ H0 H) as [_ <-]. exists []. rewrite app_nil_r. auto.
  - rewrite msgs_app in T. apply app_eq_nil in T as [T To]. destruct op as [m|]; [discriminate|]. rewrite app_assoc in H.
    apply history_prefix in H as (s1 & tr1 & o & H1 & _ & E & ->). destruct (IH T _ _ _ _ H0 H1) as (o1 & -> & F1).
    exists (o1 ++ o). rewrite app_assoc. split; [reflexivity|]. apply Forall_app. split; [exact F1|]. apply (quiet_frame r hw mem (ops ++ tail) s1 (tr0 ++ o1) s o H1); [|exact E].
    apply without_msgs. intros m Hm. rewrite msgs_app, T, app_nil_r in Hm. apply W, in_msgs, Hm.
Qed.
Lemma psg_fold {A} (f : A -> event -> A) : (forall h e, psg_event e = true -> f h e = h) -> forall o, Forall (fun e => psg_event e = true) o -> forall x, fold_left f o x = x.
Proof. intros Hf o. induction 1 as [|e o He _ IH]; intros x; [reflexivity|]. cbn [fold_left]. rewrite (Hf _ _ He). apply IH. Qed.
Lemma psg_chip tr o : Forall (fun e => psg_event e = true) o -> (forall n, key_state (tr ++ o) n = key_state tr n) /\ (forall n, chip_freq (tr ++ o) n = chip_freq tr n) /\ ym_regs (tr ++ o) = ym_regs tr.
Proof.
  intros F. split; [|split]; unfold key_state, chip_freq, yf_run, ym_regs; intros; rewrite fold_left_app, psg_fold; try exact F; try reflexivity; intros h [] E; try discriminate; reflexivity.
Qed.

(** ** From the cable to the FM chip *)
Theorem wire_silent r hw mem arr evs l m tr n : received r hw mem arr evs l m tr -> 0 <= n < 6 ->
  without raw_write (told l) -> without (is_cc 78) (told l) -> without (is_cc 65) (told l) -> without remapping (told l) ->
  MidiSpec.held (meanings [] l) = [] -> key_state tr n = Some false.
Proof.
  intros H Hn W1 W2 W3 W4 Hh. destruct (machine_messages_all _ _ _ _ _ _ _ _ H) as (ops & Ho & M).
  apply (c31_silent r hw mem ops (mc_app m) tr n Ho Hn); try (apply (without_told _ _ l M); assumption). rewrite held_msgs, M. exact Hh.
Qed.
Theorem wire_held r hw mem arr evs l m tr n : received r hw mem arr evs l m tr -> 0 <= n < 6 ->
  without raw_write (told l) -> without (is_cc 78) (told l) -> without (is_cc 65) (told l) -> without remapping (told l) ->
  key_state tr n = Some true -> exists d, dev_at (a_midi (mc_app m)) n d /\ d_on d = true /\ In (d_midi d, note_of d) (MidiSpec.held (meanings [] l)).
Proof.
  intros H Hn W1 W2 W3 W4 Hh. destruct (machine_messages_all _ _ _ _ _ _ _ _ H) as (ops & Ho & M).
  rewrite <- M, <- held_msgs. apply (held_at_chip r hw mem ops (mc_app m) tr n Ho Hn); try (apply (without_told _ _ l M); assumption). exact Hh.
Qed.

Lemma no_porta ms : (forall m, In m ms -> ~ is_cc 65 m) -> forall c, tn_glide (tuned ms) c = false.
Proof.
  unfold tuned. assert (G : forall ms t, (forall c, tn_glide t c = false) -> (forall m, In m ms -> ~ is_cc 65 m) -> forall c, tn_glide (fold_left tuning_after ms t) c = false).
  { induction ms0 as [|m t IH]; intros u Hu H c; [apply Hu|]. cbn [fold_left]. apply IH; [|intros x Hx; apply H; right; exact Hx]. clear c. intros c.
    assert (Hm : ~ is_cc 65 m) by (apply H; left; reflexivity). destruct m; cbn [tuning_after]; try apply Hu.
    - match goal with |- context [?k =? 65] => destruct (Z.eqb_spec k 65) as [->|]; [exfalso; apply Hm; do 2 eexists; reflexivity|]; destruct (k =? 85); [apply Hu|]; destruct (k =? 121); [|apply Hu] end.
      cbn [tn_glide]. unfold set_at. destruct (_ =? _); [reflexivity|apply Hu].
    - destruct (is_gm_reset data); [reflexivity|]. destruct data as [|a [|b [|d [|e [|f [|g data]]]]]]; try apply Hu. destruct (_ && _); [apply Hu|apply Hu].
    - reflexivity. }
  intros H c. apply G; [reflexivity|exact H].
Qed.

(** The Note On that arrived last, at the chip. *)
Lemma wire_note r hw mem arr evs l c p v m tr : received r hw mem arr evs (l ++ [NoteOn c p v]) m tr -> without (is_cc 65) (told l) ->
  exists before s0 s tr0 o, history r hw mem before s0 tr0 /\ history r hw mem (before ++ [AMsg (MNoteOn c p v)]) s (tr0 ++ o) /\ msgs before = meanings [] l /\
    (forall n, key_state tr n = key_state (tr0 ++ o) n) /\ (forall n, chip_freq tr n = chip_freq (tr0 ++ o) n) /\ ym_regs tr = ym_regs (tr0 ++ o).
Proof.
  intros H W. destruct (machine_messages_all _ _ _ _ _ _ _ _ H) as (ops & Ho & M). rewrite meanings_app in M. cbn in M.
  destruct (msgs_split _ _ _ M) as (before & tail & -> & B & T).
  replace (before ++ AMsg (MNoteOn c p v) :: tail) with ((before ++ [AMsg (MNoteOn c p v)]) ++ tail) in Ho by (rewrite <- app_assoc; reflexivity).
  destruct (history_app _ _ _ _ _ _ _ Ho) as (s & tr1 & H1). assert (H1' := H1). apply history_prefix in H1' as (s0 & tr0 & o & H0 & _ & _ & ->).
  assert (W1 : without (is_cc 65) (before ++ [AMsg (MNoteOn c p v)])).
  { apply without_msgs. intros x Hx. rewrite msgs_app in Hx. apply in_app_or in Hx as [Hx|[<-|[]]]; [|intros (a & b & [=])].
    apply (without_told _ before l B W), in_msgs, Hx. }
  destruct (quiet_frames r hw mem _ tail W1 T _ _ _ _ H1 Ho) as (o2 & -> & F). destruct (psg_chip (tr0 ++ o) o2 F) as (K1 & K2 & K3).
  exists before, s0, s, tr0, o. repeat (split; [assumption|]). assumption.
Qed.

Theorem wire_heard r hw mem arr evs l c p v m tr : received r hw mem arr evs (l ++ [NoteOn c p v]) m tr -> 0 <= c < 6 -> 1 <= v ->
  without raw_write (told l) -> without (is_cc 78) (told l) -> without (is_cc 65) (told l) -> without remaps (told l) ->
  (length (filter (fun k => Z.eqb (fst k) c) (MidiSpec.held (meanings [] l))) < 10)%nat ->
  let x := pitched (meanings [] l) c p in
  0 <= bent (meanings [] l) c p -> 0 <= x -> 11 <= x / 100 <= 106 ->
  key_state tr c = Some true /\ chip_freq tr c = Some (fm_note r (x / 100) (x mod 100)).
Proof.
  intros H Hc Hv W1 W2 W3 W4 Hn x Hb Hx Hr. assert (Hok : msg_ok (NoteOn c p v)) by (destruct H as (_ & Hl & _); apply Forall_app in Hl as [_ Hl]; exact (Forall_inv Hl)).
  destruct Hok as (_ & Hp & Hv'). unfold data_ok in *.
  destruct (wire_note _ _ _ _ _ _ _ _ _ _ _ H W3) as (before & s0 & s & tr0 & o & H0 & H1 & B & K1 & K2 & K3).
  assert (W : forall P, without P (told l) -> without P before) by (intros P; exact (without_told P before l B)).
  assert (Key : key_state o c = Some true).
  { destruct (note_heard r hw mem before c p v s0 tr0 H0 Hc) as (s' & o' & H1' & K).
    - unfold MidiSpec.seven. lia.
    - lia.
    - exact (W _ W4).
    - exact (W _ W2).
    - rewrite tuned_msgs. apply no_porta. intros m0 Hm0. apply (W _ W3), in_msgs, Hm0.
    - rewrite held_msgs, B. exact Hn.
    - rewrite bent_msgs, B. exact Hb.
    - rewrite pitched_msgs, B. exact Hx.
    - rewrite pitched_msgs, B. exact Hr.
    - destruct (history_same _ _ _ _ _ _ _ _ H1 H1') as [_ E]. apply app_inv_head in E. subst o'. exact K. }
  destruct (note_pitch r hw mem before c p v s0 s tr0 o H0 H1 c ltac:(lia) ltac:(lia) Key (W _ W1)) as (_ & Ka & Kb).
  - rewrite bent_msgs, B. exact Hb.
  - rewrite pitched_msgs, B. exact Hx.
  - rewrite K1, K2. split; [exact Ka|]. rewrite Kb, pitched_msgs, B. fold x. destruct (Z.eqb_spec c 9); [lia|reflexivity].
Qed.

Theorem wire_voice r hw mem arr evs l c p v m tr : received r hw mem arr evs (l ++ [NoteOn c p v]) m tr -> 0 <= c < 6 -> 1 <= v ->
  without raw_write (told l) -> without (is_cc 78) (told l) -> without (is_cc 65) (told l) -> without remaps (told l) ->
  without remapping (told l) -> without (is_cc 77) (told l) -> without edits_fm (told l) -> without stores (told l) ->
  drums_in_order (meanings [] l) -> c <> 2 \/ without sm_note (told l) ->
  (length (filter (fun k => Z.eqb (fst k) c) (MidiSpec.held (meanings [] l))) < 10)%nat ->
  let x := pitched (meanings [] l) c p in
  let st := settings (meanings [] l) c in
  let instrument := nth (Z.to_nat (st_prog st)) (rom_presets r) no_preset in
  0 <= bent (meanings [] l) c p -> 0 <= x -> 11 <= x / 100 <= 106 ->
  plays_preset (ym_regs tr) c instrument /\ plays_level (ym_regs tr) c instrument (loudness (st_vol st) v) /\ chip_st (ym_regs tr) c = Some (pan_side (st_pan st)).
Proof.
  intros H Hc Hv W1 W2 W3 W4 W5 W6 W7 W8 Hd Hsm Hn x st instrument Hb Hx Hr.
  assert (Hok : msg_ok (NoteOn c p v)) by (destruct H as (_ & Hl & _); apply Forall_app in Hl as [_ Hl]; exact (Forall_inv Hl)).
  destruct Hok as (_ & Hp & Hv'). unfold data_ok in *.
  destruct (wire_note _ _ _ _ _ _ _ _ _ _ _ H W3) as (before & s0 & s & tr0 & o & H0 & H1 & B & K1 & K2 & K3).
  assert (W : forall P, without P (told l) -> without P before) by (intros P; exact (without_told P before l B)).
  assert (Key : key_state o c = Some true).
  { destruct (note_heard r hw mem before c p v s0 tr0 H0 Hc) as (s' & o' & H1' & K).
    - unfold MidiSpec.seven. lia.
    - lia.
    - exact (W _ W4).
    - exact (W _ W2).
    - rewrite tuned_msgs. apply no_porta. intros m0 Hm0. apply (W _ W3), in_msgs, Hm0.
    - rewrite held_msgs, B. exact Hn.
    - rewrite bent_msgs, B. exact Hb.
    - rewrite pitched_msgs, B. exact Hx.
    - rewrite pitched_msgs, B. exact Hr.
    - destruct (history_same _ _ _ _ _ _ _ _ H1 H1') as [_ E]. apply app_inv_head in E. subst o'. exact K. }
  assert (Hd' : drums_in_order (map message before)) by (apply order_msgs; rewrite B; exact Hd).
  rewrite K3. unfold instrument, st. rewrite <- B, <- settings_msgs. split; [|split].
  - apply (note_instrument r hw mem before c p v s0 s tr0 o H0 H1 c); try (apply W; assumption); try assumption; lia.
  - apply (note_level r hw mem before c p v s0 s tr0 o H0 H1 c); try (apply W; assumption); try assumption; try lia.
    destruct Hsm as [Hsm|Hsm]; [left; exact Hsm|right]. split; [exact (W _ Hsm)|lia].
  - apply (note_side r hw mem before c p v s0 s tr0 o H0 H1 c); try (apply W; assumption); try assumption; lia.
Qed.
