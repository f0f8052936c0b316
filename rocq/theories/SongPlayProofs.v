(** A PSG note from the message to the end of its envelope: whole histories. *)
From Verif Require Import Base BaseLemmas PitchModel PitchSpec PitchProofs PsgModel PsgSpec PsgEnvProofs SynthModel.
From Verif Require Import MidiModel MidiSpec MidiProofs MidiOkProofs MidiEqProofs MidiEffectProofs MidiNoteProofs MidiCallProofs MidiChanProofs MidiTuneProofs MidiDevProofs MidiInvProofs MidiCarryProofs MidiStaticProofs MidiPlaceProofs.
From Verif Require Import DevModel DevSpec DevProofs AppModel AppSpec AppProofs AppTraceProofs AppClaimsProofs AppViewProofs SoundSpec AppSoundProofs AppToneProofs AppNoteProofs SongSpec SongProofs SongNoteProofs.
Local Notation held := PsgSpec.held.
Local Notation carried := MidiCarryProofs.carried.

(** ** What stretches of a history keep *)
Lemma message_ok op : aop_ok op -> mop_ok (message op).
Proof. destruct op; [auto|intros _; exact Logic.I]. Qed.
Lemma voice_plain c : voice_call c -> ~ In PReset (psg_calls c) /\ (forall e, ~ In (PLoad e) (psg_calls c)).
Proof.
  intros V. destruct c as [v ? ? ? ?|v ? ?|v ? ?|v ? ?|v ?|v ? ?|v ? ? ?|? ?|?|?|? ?|?|? ?|?|? ?|?| | | | | |? ? ? ?|? ?]; try contradiction V;
    try destruct v; cbn [psg_calls]; (split; [|intros ?]); intros X; cbn in X; intuition discriminate.
Qed.
Lemma menu_plain op c : menu op c -> (op <> MReset -> ~ In PReset (psg_calls c)) /\ (~ is_sysex_cmd 6 op -> forall e, ~ In (PLoad e) (psg_calls c)).
Proof.
  assert (V : forall c, voice_call c -> (op <> MReset -> ~ In PReset (psg_calls c)) /\ (~ is_sysex_cmd 6 op -> forall e, ~ In (PLoad e) (psg_calls c))).
  { intros x Hx. destruct (voice_plain x Hx). auto. }
  assert (N : forall c, psg_calls c = [] -> (op <> MReset -> ~ In PReset (psg_calls c)) /\ (~ is_sysex_cmd 6 op -> forall e, ~ In (PLoad e) (psg_calls c))).
  { intros x ->. split; [intros _ []|intros _ e []]. }
  destruct op; cbn [menu]; intros M; try (apply V; exact M).
  - decompose [or and ex] M; subst; try (apply V; assumption); apply N; reflexivity.
  - destruct M as [M|(k & a & b & d & ->)]; [apply V, M|apply N; reflexivity].
  - destruct M as [[_ M]|[(_ & l & ->)|[(M & e & ->)|[(_ & a & b & d & ->)|[(_ & a & b & ->)|[(_ & a & ->)|[(_ & a & ->)|(_ & a & b & ->)]]]]]]];
      try (apply V; exact M); try (apply N; reflexivity). split; [intros _ [X|[]]; discriminate|]. intros X. contradiction.
  - destruct M as [M|[-> |[-> | ->]]]; [apply V, M| | |]; try (apply N; reflexivity). split; [intros X; contradiction X; reflexivity|intros _ e [X|[]]; discriminate].
  - contradiction.
Qed.
Lemma step_plain op s s' cs : steps s op s' cs -> (op <> MReset -> ~ In PReset (flat_map psg_calls cs)) /\ (~ is_sysex_cmd 6 op -> forall e, ~ In (PLoad e) (flat_map psg_calls cs)).
Proof.
  intros E. assert (M := step_menu _ _ _ _ E). rewrite Forall_forall in M.
  split; [intros N X|intros N e X]; apply in_flat_map in X as (c & Hc & X); destruct (menu_plain _ _ (M c Hc)) as [A B]; [exact (A N X)|exact (B N e X)].
Qed.
Lemma no_load po : (forall e, ~ In (PLoad e) po) -> forall d, last_load d po = d.
Proof.
  induction po as [|x t IH]; intros H d; [reflexivity|]. assert (Ht : forall e, ~ In (PLoad e) t) by (intros e X; apply (H e); right; exact X).
  destruct x; cbn [last_load]; try apply (IH Ht). exfalso. eapply H. left. reflexivity.
Qed.
Lemma tick_plain op : ~ In PReset (tick op) /\ forall e, ~ In (PLoad e) (tick op).
Proof. destruct op; cbn; split; [tauto|tauto|intuition discriminate|intros e X; intuition discriminate]. Qed.
Lemma without_app P a b : without P (a ++ b) <-> without P a /\ without P b.
Proof.
  split; [intros W; split; intros m Hm; apply W, in_or_app; auto|]. intros [A B] m Hm. apply in_app_or in Hm as [Hm|Hm]; auto.
Qed.
Lemma score_keeps ops : forall s0 s2 po, midi_ok s0 -> Forall aop_ok ops -> score s0 ops s2 po ->
  midi_ok s2 /\
  (without (eq MReset) ops -> ~ In PReset po /\ forall P, linked s0 P -> linked s2 (P ++ po)) /\
  (without (is_sysex_cmd 6) ops -> forall e, ~ In (PLoad e) po) /\
  (without remapping ops -> carried s0 -> carried s2).
Proof.
  induction ops as [|op ops IH] using rev_ind; intros s0 s2 po Hs Ho H.
  - inversion H as [E E1 E2|a s1 pa x s2' cs S T E E1 E2]; [|destruct a; discriminate]. subst.
    split; [exact Hs|]. split; [intros _; split; [intros []|intros P; rewrite app_nil_r; auto]|]. split; [intros _ e []|auto].
  - apply score_snoc in H as (s1 & pa & cs & S & T & ->). apply Forall_app in Ho as [Ho1 Ho2]. apply Forall_inv, message_ok in Ho2.
    destruct (IH _ _ _ Hs Ho1 S) as (K1 & K2 & K3 & K4). assert (Hs2 := proj1 (step_ok _ _ _ _ K1 Ho2 T)). destruct (step_plain _ _ _ _ T) as [P1 P2]. destruct (tick_plain op) as [T1 T2].
    split; [exact Hs2|]. split; [|split].
    + intros W. apply without_app in W as [W1 W2]. destruct (K2 W1) as [A B].
      assert (N : message op <> MReset) by (destruct op as [m|]; [intros E; apply (W2 m); [left; reflexivity|symmetry; exact E]|discriminate]). split.
      * intros X. apply in_app_or in X as [X|X]; [exact (A X)|]. apply in_app_or in X as [X|X]; [exact (T1 X)|exact (P1 N X)].
      * intros P L. rewrite app_assoc. apply (linked_step op s1); auto.
    + intros W e X. apply without_app in W as [W1 W2]. assert (N : ~ is_sysex_cmd 6 (message op)) by (destruct op as [m|]; [apply W2; left; reflexivity|intros (l & [=])]).
      apply in_app_or in X as [X|X]; [exact (K3 W1 e X)|]. apply in_app_or in X as [X|X]; [exact (T2 e X)|exact (P2 N e X)].
    + intros W C. apply without_app in W as [W1 W2].
      assert (N : ~ remapping (message op)) by (destruct op as [m|]; [apply W2; left; reflexivity|intros [(a & b & [=])|[(a & b & [=])|[(a & [=])|(a & [=])]]]]).
      exact (carried_step _ tt _ _ _ N Ho2 K1 (K4 W1 C) T Hs2).
Qed.
Lemma boot_plain : ~ In PReset boot_po /\ forall e, ~ In (PLoad e) boot_po.
Proof.
  assert (X : forallb (fun x => match x with PReset | PLoad _ => false | _ => true end) boot_po = true) by (vm_compute; reflexivity).
  rewrite forallb_forall in X. split; [intros H|intros e H]; apply X in H; discriminate.
Qed.

(** ** A note left alone *)
Lemma undisturbed_app c a b : undisturbed c (a ++ b) <-> undisturbed c a /\ undisturbed c b.
Proof.
  split; [intros W; split; intros m Hm; apply W, in_or_app; auto|]. intros [A B] m Hm. apply in_app_or in Hm as [Hm|Hm]; auto.
Qed.
Lemma undisturbed_without c ops : undisturbed c ops -> without remapping ops /\ without (is_sysex_cmd 6) ops /\ without (eq MReset) ops.
Proof. intros U. split; [|split]; intros m Hm; destruct (U m Hm) as (A & B & C & D & _); [exact A|exact C|intros E; symmetry in E; exact (D E)]. Qed.
Lemma gentle_quiet n po : ~ In PReset po -> (forall e, ~ In (PLoad e) po) -> Forall gentle (filter (mine n) po) -> forall x, In x po -> quiet n x.
Proof.
  intros N L G x Hx. rewrite Forall_forall in G. split; [|split].
  - intros R. assert (M : mine n x = true) by (destruct x; cbn in *; try contradiction; apply Z.eqb_eq; exact R).
    assert (X := G x ltac:(apply filter_In; auto)). destruct x; contradiction.
  - intros R. destruct x; cbn in R; try contradiction. assert (X := G (PNoteOn c pitch cents vel) ltac:(apply filter_In; split; [exact Hx|apply Z.eqb_eq; exact R])). contradiction.
  - intros R. destruct x; try contradiction. exact (L _ Hx).
Qed.
Lemma gentle_velocity n po v : Forall gentle po -> asked_velocity n v po = v.
Proof. induction po as [|x t IH]; intros G; [reflexivity|]. inversion G; subst. destruct x; try contradiction; cbn [asked_velocity]; apply IH; assumption. Qed.
Lemma tick_mine n op : filter (mine n) (tick op) = [].
Proof. destruct op; reflexivity. Qed.
Lemma score_kept n c p more : is_psg n -> forall s0 s2 po d m, midi_ok s0 -> carried s0 -> Forall aop_ok more -> undisturbed c more -> score s0 more s2 po -> sounding s0 n c p d m ->
  exists d' m', sounding s2 n c p d' m' /\ Forall gentle (filter (mine n) po) /\ asked_pitch n (total (eff m d)) (filter (mine n) po) = total (eff m' d') /\ d_glide d' = d_glide d.
Proof.
  intros Hn. induction more as [|op more IH] using rev_ind; intros s0 s2 po d m Hs Hca Ho U H So.
  - inversion H as [E E1 E2|a s1 pa x s2' cs S T E E1 E2]; [|destruct a; discriminate]. subst. exists d, m. split; [exact So|]. split; [constructor|]. split; reflexivity.
  - apply score_snoc in H as (s1 & pa & cs & S & T & ->). apply Forall_app in Ho as [Ho1 Ho2]. apply Forall_inv, message_ok in Ho2. apply undisturbed_app in U as [U1 U2].
    destruct (IH _ _ _ _ _ Hs Hca Ho1 U1 S So) as (d1 & m1 & So1 & G1 & A1 & D1).
    destruct (score_keeps _ _ _ _ Hs Ho1 S) as (Hs1 & _ & _ & Ca). assert (Hca1 := Ca (proj1 (undisturbed_without _ _ U1)) Hca).
    assert (L : leaves_note c (message op)).
    { destruct op as [x|]; [apply U2; left; reflexivity|]. cbn [message]. split; [intros [(a & b & [=])|[(a & b & [=])|[(a & [=])|(a & [=])]]]|].
      split; [intros (t & [=])|]. split; [intros (t & [=])|]. split; [discriminate|exact Logic.I]. }
    destruct (kept_step _ n c p _ _ _ d1 m1 Hn Ho2 Hs1 Hca1 L T So1) as (d2 & m2 & So2 & G2 & A2 & D2).
    exists d2, m2. split; [exact So2|]. rewrite !filter_app, tick_mine. cbn [Datatypes.app]. split; [apply Forall_app; auto|]. rewrite asked_pitch_app, A1. split; [exact A2|congruence].
Qed.

(** ** The start of the note *)
Lemma note_begins s s' n c p v cs d0 d1 : midi_ok s -> mop_ok (MNoteOn c p v) -> v <> 0 -> is_psg n -> steps s (MNoteOn c p v) s' cs ->
  dev_at s (6 + n) d0 -> dev_at s' (6 + n) d1 -> d_on d0 = false -> d_on d1 = true ->
  exists d m, shape_ok (6 + n) d /\ ch_ok c m /\ dev_at s' (6 + n) (started m c p d) /\ cs = start_calls m c p v d /\ ch_at s' c m.
Proof.
  intros Hs (Hc & Hp & Hv) N Hn E H0 H1 O0 O1. destruct (ok_ch_get s c Hs Hc) as (m0 & Hm & Hok).
  destruct (midi_note_on_eq c p v s m0 Hs Hc Hp N Hm) as (s1 & o1 & E1 & R). unfold steps in E. cbn [midi_step] in E. rewrite E1 in E. injection E as <- <-.
  assert (Hcl := zget_Some _ _ _ Hm). unfold dev_at in *.
  assert (X : forall l i (d x : dev), l = md_dev s -> zget l i = Some d -> (d_on x = d_on d \/ i <> 6 + n) -> zget (zset l i x) (6 + n) = Some d1 -> False).
  { intros l i d x -> Hd Hx Hg. destruct (Z.eq_dec i (6 + n)) as [->|Ni].
    - rewrite zget_zset_same in Hg by (eapply zget_Some; exact Hd). injection Hg as <-. rewrite H0 in Hd. injection Hd as <-. destruct Hx as [Hx|Hx]; [congruence|contradiction].
    - rewrite zget_zset_other in Hg by congruence. congruence. }
  destruct R as [T|i d st T C Hd V So K Po Ne|i d st T C Hd V So K Po|i d T C Hd V]; cbn [md_dev md_set_dev md_set_ch] in *.
  - congruence.
  - exfalso. eapply X; [reflexivity|exact Hd| |exact H1]. left; reflexivity.
  - destruct (Z.eq_dec i (6 + n)) as [->|Ni]; [|exfalso; eapply X; [reflexivity|exact Hd|right; exact Ni|exact H1]].
    exists (d_set_glide d 0), (m_set_vel (m_set_np m0 st) v). destruct (ok_dev _ _ _ Hs Hd) as [[Sh _] _].
    split; [exact Sh|]. split; [unfold ch_ok in *; cbn; intuition|]. split; [apply zget_zset_same; eapply zget_Some; exact Hd|]. split; [reflexivity|]. apply zget_zset_same. exact Hcl.
  - destruct (Z.eq_dec i (6 + n)) as [->|Ni]; [|exfalso; eapply X; [reflexivity|exact Hd|right; exact Ni|exact H1]].
    exists d, m0. destruct (ok_dev _ _ _ Hs Hd) as [[Sh _] _].
    split; [exact Sh|]. split; [exact Hok|]. split; [apply zget_zset_same; eapply zget_Some; exact Hd|]. split; [reflexivity|]. exact Hm.
Qed.
Lemma static_glide s s' c p v cs d' : midi_ok s -> mop_ok (MNoteOn c p v) -> v <> 0 -> static_map s -> c < 13 -> steps s (MNoteOn c p v) s' cs -> cs <> [] -> dev_at s' c d' -> d_glide d' = 0.
Proof.
  intros Hs (Hc & Hp & Hv) N Hst Hc13 E Ne Hd'. destruct (ok_ch_get s c Hs Hc) as (m0 & Hm & Hok).
  destruct (midi_note_on_eq c p v s m0 Hs Hc Hp N Hm) as (s1 & o1 & E1 & R). unfold steps in E. cbn [midi_step] in E. rewrite E1 in E. injection E as <- <-.
  destruct R as [T|i d st T C Hd V So K Po Ne'|i d st T C Hd V So K Po|i d T C Hd V]; try contradiction.
  - destruct (static_chosen s m0 c i d Hst C Hd) as [-> _]. unfold dev_at in Hd'. cbn [md_dev md_set_dev md_set_ch] in Hd'. rewrite zget_zset_same in Hd' by (eapply zget_Some; exact Hd). injection Hd' as <-. reflexivity.
  - exfalso. apply V, static_single; auto. unfold is_chan in Hc. lia.
Qed.
Lemma static_before ops s cs0 : boots_to (MCallback true :: map message ops) s cs0 -> without remaps ops -> static_map s.
Proof.
  intros B W. apply (static_boot _ _ _) with (2 := B). apply Forall_forall. intros m Hin. apply (plain_messages remaps ops); [| |exact W|exact Hin].
  - intros [(a & b & [=])|[(a & [=])|[(a & [=])|(t & [=])]]].
  - intros [(a & b & [=])|[(a & [=])|[(a & [=])|(t & [=])]]].
Qed.
Lemma static_begins ops s cs0 s' n c p v cs : boots_to (MCallback true :: map message ops) s cs0 -> midi_ok s -> mop_ok (MNoteOn c p v) -> v <> 0 -> is_psg n -> c = 6 + n -> without remaps ops ->
  (length (filter (fun k => Z.eqb (fst k) c) (MidiSpec.held (map message ops))) < 10)%nat -> tn_glide (tuned (map message ops)) c = false ->
  steps s (MNoteOn c p v) s' cs ->
  exists d m, shape_ok (6 + n) d /\ ch_ok c m /\ dev_at s' (6 + n) (started m c p d) /\ cs = start_calls m c p v d /\ ch_at s' c m.
Proof.
  intros B Hs Om Hv Hn Ec W K G St. assert (O := Om). destruct O as (Hc & Hp & _). unfold is_psg in Hn.
  assert (S := static_before _ _ _ B W).
  destruct (ok_ch_get s c Hs Hc) as (m0 & Hm0 & Hok0).
  destruct (zget_in_range (md_dev s) c) as [d Hd]; [destruct Hs as [-> _]; lia|].
  assert (Po : m_porta m0 = false).
  { destruct (tune_boot _ _ _ B) as [_ (_ & T)]. destruct (T c m0 Hm0) as [T1 _]. rewrite T1. exact G. }
  assert (Kl : (length (keys (m_np m0)) < 10)%nat).
  { assert (X := held_stack _ _ _ B c m0 Hm0). unfold held_on in X. rewrite map_length in X. change (MidiSpec.held (MCallback true :: map message ops)) with (MidiSpec.held (map message ops)) in X. lia. }
  destruct (static_starts _ c p v _ _ m0 d Hs Hc Hp Hv S Hd Hm0 Kl Po St) as (st & E1).
  assert (NE : cs <> []) by (rewrite E1; unfold start_calls; destruct (_ && _); discriminate).
  destruct (note_calls _ _ _ _ _ _ Hs Om Hv St NE) as (i & d1 & m & Hi & Sh & Hok & Hd1 & E2 & Hch & _).
  destruct (ok_dev _ _ _ Hs Hd) as [[Shd _] _]. rewrite Ec in Shd. destruct (psg_shape n d ltac:(unfold is_psg; lia) Shd) as [O1 O2].
  assert (Q : i = 6 + n).
  { rewrite E1 in E2. rewrite !start_calls_split in E2. apply app_inj_tail in E2 as [_ E2]. injection E2 as X1 X2 _ _. cbn in X1, X2.
    apply (psg_device n i d1 Hn Hi Sh); congruence. }
  subst i. exists d1, m. repeat (split; [assumption|]). exact Hch.
Qed.

(** ** The upload of an envelope *)
Lemma nibble_pair b : byte b -> u8 (Z.lor (Z.shiftl (b / 16) 4) (b mod 16)) = b.
Proof.
  intros Hb. assert (X : forallb (fun b => u8 (Z.lor (Z.shiftl (b / 16) 4) (b mod 16)) =? b) (zseq 0 256) = true) by (vm_compute; reflexivity).
  rewrite forallb_forall in X. apply Z.eqb_eq, X, in_zseq. unfold byte in Hb. lia.
Qed.
Lemma nibble_bytes e : Forall byte e -> envelope_bytes (nibbles e) = WDone e [].
Proof.
  induction 1 as [|b t Hb Ht IH]; [reflexivity|]. change (nibbles (b :: t)) with (b / 16 :: b mod 16 :: nibbles t). cbn [envelope_bytes]. rewrite IH, (nibble_pair b Hb). reflexivity.
Qed.
Lemma upload_step s s' e cs : Forall byte e -> steps s (upload e) s' cs -> cs = [DEnv (e ++ [255])].
Proof.
  intros He E. unfold steps, upload, own_sysex in E. cbn [midi_step] in E. unfold midi_sysex in E.
  replace (Z.of_nat (length ([0; 34; 119; 6] ++ nibbles e)) <? 4) with false in E by (symmetry; apply Z.ltb_ge; rewrite app_length; cbn; lia).
  change (has_prefix [126; 127; 9; 1] ([0; 34; 119; 6] ++ nibbles e)) with false in E.
  change (has_prefix [0; 34; 119] ([0; 34; 119; 6] ++ nibbles e)) with true in E. cbv iota beta in E.
  change (negb true) with false in E. cbv iota in E.
  apply wbind_inv in E as (a & o1 & o2 & E1 & E2 & ->). injection E1 as <- <-.
  change (load_psg_envelope (nibbles e) s = WDone s' o2) in E2. unfold load_psg_envelope in E2. rewrite (nibble_bytes e He) in E2.
  apply wbind_inv in E2 as (a & o1 & o3 & E1 & E2 & ->). injection E1 as <- <-.
  destruct (256 <=? _); [discriminate|]. injection E2 as _ <-. reflexivity.
Qed.

(** ** Whole histories *)
Lemma score_same s ops : forall s2 po s2' po', score s ops s2 po -> score s ops s2' po' -> s2 = s2' /\ po = po'.
Proof.
  induction ops as [|op ops IH] using rev_ind; intros s2 po s2' po' H H'.
  - inversion H as [E E1 E2|a s1 pa x s2a cs S T E E1 E2]; [|destruct a; discriminate]. inversion H' as [E' E1' E2'|a s1 pa x s2a cs S T E' E1' E2']; [|destruct a; discriminate]. subst. auto.
  - apply score_snoc in H as (s1 & pa & cs & S & T & ->). apply score_snoc in H' as (s1' & pa' & cs' & S' & T' & ->).
    destruct (IH _ _ _ _ S S') as [<- <-]. unfold steps in T, T'. rewrite T in T'. injection T' as <- <-. auto.
Qed.
Lemma boot_pops : Forall pop_ok boot_po.
Proof.
  unfold boot_po. destruct boot_calls_split as (t & Et & _). assert (X := boot_calls_ok). rewrite Et in X |- *. change (skipn 4 (_ ++ t)) with t. apply Forall_app in X as [_ X].
  apply Forall_flat_map. rewrite Forall_forall in X |- *. intros c Hc. apply psg_calls_ok, X, Hc.
Qed.
Lemma powered_ok : midi_ok powered_on /\ carried powered_on.
Proof.
  assert (B : boots_to [MCallback true] powered_on boot_calls).
  { split; [repeat constructor|]. vm_compute. reflexivity. }
  apply (carried_boot _ _ _) with (2 := B). repeat constructor. apply (proj1 remapping_plain).
Qed.

Section Song.
Context (r : rom) (hw : hardware) (mem : list Z) (before : list aop) (c p v n : Z).
Local Notation ms := (map message before).
Context (Hn : is_psg n) (Hv : 1 <= v) (G : given_psg r hw mem before c p v n).
Context (W1 : without remapping before) (W2 : without (eq MReset) before) (Gl : tn_glide (tuned ms) c = false).
Context (L1 : 0 <= bent ms c p) (L2 : 45 <= pitched ms c p / 100).

(** The calls up to the note. *)
Lemma song_begins s1 tr1 po : history r hw mem (before ++ [AMsg (MNoteOn c p v)]) s1 tr1 -> score powered_on (before ++ [AMsg (MNoteOn c p v)]) (a_midi s1) po ->
  exists pb q ce d m, boot_po ++ po = pb ++ [PNoteOn n q ce v] /\ ~ In PReset pb /\ 45 <= q /\ linked (a_midi s1) (pb ++ [PNoteOn n q ce v]) /\
    (forall env, voice_envelope r before c env -> selected (rom_envs r) n pb = Some env) /\
    sounding (a_midi s1) n c p d m /\ q * 100 + ce = total (eff m d) /\ (c = 6 + n -> without remaps before -> d_glide d = 0).
Proof.
  intros H1 Sc. assert (H1' := H1). apply LibraryProofs.history_prefix in H1' as (s0 & tr0 & o & H0 & E1). 
  destruct (history_score _ _ _ _ _ _ H0) as (po0 & S0 & _ & _).
  apply score_snoc in Sc as (s0' & pa & cs & S0' & St & Epo). destruct (score_same _ _ _ _ _ _ S0 S0') as [<- <-]. cbn [tick message Datatypes.app] in *.
  destruct (history_played _ _ _ _ _ _ H0) as ((Hs & _) & cs0 & B & _). destruct (history_played _ _ _ _ _ _ H1) as ((Hs1 & _) & cs1 & B1 & _).
  assert (Ok : Forall aop_ok (before ++ [AMsg (MNoteOn c p v)])) by apply H1. apply Forall_app in Ok as [Ok Om]. apply Forall_inv in Om. change (mop_ok (MNoteOn c p v)) in Om.
  assert (Bg : exists d m, shape_ok (6 + n) d /\ ch_ok c m /\ dev_at (a_midi s1) (6 + n) (started m c p d) /\ cs = start_calls m c p v d /\ ch_at (a_midi s1) c m).
  { destruct G as [(Ec & W & K)|(x0 & y0 & x1 & y1 & X0 & X1 & (d0 & d1 & D0 & D1 & O0 & O1 & _))].
    - exact (static_begins before _ _ _ n c p v cs B Hs Om ltac:(lia) Hn Ec W K Gl St).
    - destruct (history_same _ _ _ _ _ _ _ _ X0 H0) as [-> _]. destruct (history_same _ _ _ _ _ _ _ _ X1 H1) as [-> _].
      apply (note_begins _ _ _ _ _ _ _ d0 d1 Hs Om ltac:(lia) Hn St); assumption. }
  destruct Bg as (d & m & Sh & Hok & Hd & Ecs & Hch). destruct (psg_shape n d Hn Sh) as [O1 O2].
  destruct powered_ok as [P1 P2]. destruct (score_keeps _ _ _ _ P1 Ok S0) as (_ & K2 & K3 & _). destruct (K2 W2) as [K4 K5].
  destruct boot_plain as [BP1 BP2].
  assert (V : forall x, In x (tuneup m c p d) -> voice_call x).
  { intros x Hx. assert (M := step_menu _ _ _ _ St). rewrite Forall_forall in M. apply (M x). rewrite Ecs, start_calls_split. apply in_or_app. left; exact Hx. }
  set (tu := flat_map psg_calls (tuneup m c p d)).
  assert (T1 : ~ In PReset tu). { intros X. apply in_flat_map in X as (x & Hx & X). exact (proj1 (voice_plain x (V x Hx)) X). }
  assert (T2 : forall e, ~ In (PLoad e) tu). { intros e X. apply in_flat_map in X as (x & Hx & X). exact (proj2 (voice_plain x (V x Hx)) e X). }
  set (q := pc_pitch (eff m (started m c p d))). set (ce := pc_cents (eff m (started m c p d))).
  assert (Efull : boot_po ++ po = (boot_po ++ po0 ++ tu) ++ [PNoteOn n q ce v]).
  { rewrite Epo, Ecs, start_calls_split, flat_map_app. cbn [flat_map]. rewrite O1, O2. cbn [psg_calls Datatypes.app]. fold tu q ce. rewrite <- !app_assoc. reflexivity. }
  assert (Lk : linked (a_midi s1) ((boot_po ++ po0 ++ tu) ++ [PNoteOn n q ce v])).
  { rewrite <- Efull, Epo, app_assoc. apply (linked_step (AMsg (MNoteOn c p v)) (a_midi s0)); [exact Om|exact Hs|exact St|discriminate|]. apply K5, linked_boot. }
  exists (boot_po ++ po0 ++ tu), q, ce, (started m c p d), m. split; [exact Efull|]. split.
  { intros X. apply in_app_or in X as [X|X]; [exact (BP1 X)|]. apply in_app_or in X as [X|X]; [exact (K4 X)|exact (T1 X)]. }
  destruct (note_eff before c p v s1 d m _ Hch Hok ltac:(apply Om) B1 L1) as [Q1 Q2]; [assert (X := Z.mul_div_le (pitched ms c p) 100 ltac:(lia)); lia|].
  split; [unfold q; rewrite Q1; exact L2|]. split; [exact Lk|].
  split; [|split].
  - assert (Pr : asked_program n 0 (boot_po ++ po0 ++ tu) = st_prog (settings ms c)).
    { destruct (Lk n _ Hn Hd) as [_ X]. rewrite asked_program_app in X. cbn [asked_program] in X. rewrite X.
      destruct (settings_boot _ _ _ B1) as [_ S]. destruct (S c m Hch) as (_ & _ & S3 & _). rewrite settings_messages, settings_note in S3. rewrite <- S3. reflexivity. }
    assert (Ll : last_load None (boot_po ++ po0 ++ tu) = last_load None po0).
    { rewrite !last_load_app, (no_load _ BP2), (no_load _ T2). reflexivity. }
    intros env [(a & e & b & Eb & Wb & He & ->)|[Wb Hz]]; unfold selected; rewrite Ll.
    + rewrite Eb in S0. replace (a ++ AMsg (upload e) :: b) with ((a ++ [AMsg (upload e)]) ++ b) in S0 by (rewrite <- app_assoc; reflexivity).
      apply score_app in S0 as (sm & pm & pe & Sm & Se & ->). apply score_snoc in Sm as (sl & pl & cl & Sl & Tl & ->). cbn [tick message Datatypes.app] in *.
      rewrite (upload_step _ _ _ _ He Tl). rewrite Eb in Ok. replace (a ++ AMsg (upload e) :: b) with ((a ++ [AMsg (upload e)]) ++ b) in Ok by (rewrite <- app_assoc; reflexivity).
      apply Forall_app in Ok as [Ok1 Ok2]. apply Forall_app in Ok1 as [Oka Oku]. apply Forall_inv in Oku.
      destruct (score_keeps _ _ _ _ P1 Oka Sl) as (Hl & _). assert (Hm := proj1 (step_ok _ _ _ _ Hl Oku Tl)). destruct (score_keeps _ _ _ _ Hm Ok2 Se) as (_ & _ & Ld & _).
      rewrite !last_load_app, (no_load _ (Ld Wb)). reflexivity.
    + rewrite (no_load _ (K3 Wb)), Pr. exact Hz.
  - split; [exact Hd|]. split; [reflexivity|]. split; [reflexivity|]. split; [reflexivity|]. split; [reflexivity|]. split; [exact Hch|].
    destruct (tune_boot _ _ _ B1) as [_ (_ & T)]. destruct (T c m Hch) as [T3 _]. rewrite T3.
    unfold tuned. cbn [fold_left tuning_after]. rewrite map_app, fold_left_app. exact Gl.
  - split; [reflexivity|]. intros Ec Wr. apply (static_glide (a_midi s0) (a_midi s1) c p v cs); auto; [lia|exact (static_before _ _ _ B Wr)|unfold is_psg in Hn; lia| |replace c with (6 + n) at 1; exact Hd].
    rewrite Ecs. unfold start_calls. destruct (_ && _); discriminate.
Qed.

(** The note and what follows it. *)
Context (more : list aop) (s : app) (tr : list event).
Local Notation all := (before ++ AMsg (MNoteOn c p v) :: more).
Context (H : history r hw mem all s tr) (U : undisturbed c more).
Context (L3 : 0 <= bent (map message all) c p) (L4 : 0 <= pitched (map message all) c p).

Lemma without_all : without remapping all.
Proof.
  apply without_app. split; [exact W1|]. intros m [[= <-]|Hm]; [|exact (proj1 (undisturbed_without _ _ U) m Hm)].
  intros [(a & b & [=])|[(a & b & [=])|[(a & [=])|(a & [=])]]].
Qed.
Lemma sounding_pitch s2 tr2 ops d m : MidiSpec.seven p -> history r hw mem ops s2 tr2 -> without remapping ops -> sounding (a_midi s2) n c p d m -> 0 <= bent (map message ops) c p -> 0 <= pitched (map message ops) c p ->
  total (eff m d) = pitched (map message ops) c p.
Proof.
  intros Sp H2 Wr (Hd & Hon & Hmi & Hp & Hce & Hm & _) B1 B2. destruct (history_played _ _ _ _ _ _ H2) as ((Hs & _) & cs & B & _).
  destruct (settings_boot _ _ _ B) as [_ S]. destruct (S c m Hm) as (_ & _ & _ & S4 & S5 & S6 & _). rewrite settings_messages in S4, S5, S6.
  destruct (tune_boot _ _ _ B) as [_ (_ & T)]. destruct (T c m Hm) as [_ T2]. change (tuned (MCallback true :: map message ops)) with (tuned (map message ops)) in T2.
  assert (R : Forall (fun m => ~ remapping m) (MCallback true :: map message ops)).
  { apply Forall_forall. intros x Hin. exact (plain_messages remapping ops (proj1 remapping_plain) (proj2 remapping_plain) Wr x Hin). }
  destruct (ok_ch _ _ _ Hs Hm) as [Hok Hc].
  destruct (sounding_settings _ _ _ _ _ R B Hd Hon ltac:(rewrite Hmi; unfold is_chan; lia)) as (_ & _ & _ & Db). rewrite Hmi, settings_messages, <- S4 in Db.
  destruct Hok as (_ & _ & _ & _ & Hb & R1 & R2 & _ & _ & _ & _ & F).
  assert (Eb : bent (map message ops) c p = 100 * d_pitch d + d_cents d + bend_cents (d_bend d) (100 * pc_pitch (m_range m) + pc_cents (m_range m))).
  { unfold bent. rewrite Hp, Hce, Db, <- S4, <- S5, <- S6. lia. }
  unfold MidiSpec.seven in *. assert (BB := bend_cents_bound (d_bend d) (100 * pc_pitch (m_range m) + pc_cents (m_range m)) ltac:(lia) ltac:(lia)).
  unfold pitched in B2 |- *. rewrite <- T2 in B2 |- *.
  destruct (eff_total m d ltac:(lia) ltac:(unfold MidiSpec.seven; lia) ltac:(unfold MidiSpec.seven; lia)) as [E1 E2]; [lia|lia|].
  rewrite <- Eb in E1, E2. unfold total. rewrite E1, E2, Z.mul_comm. symmetry. apply Z.div_mod. lia.
Qed.
Lemma seven_p : MidiSpec.seven p.
Proof.
  destruct H as (_ & _ & Ok & _). apply Forall_app in Ok as [_ Ok]. apply Forall_inv in Ok. apply Ok.
Qed.
(** The calls of the whole. *)
Lemma song_run : exists pb q ce pm po d m, score powered_on all (a_midi s) po /\ boot_po ++ po = pb ++ PNoteOn n q ce v :: pm /\ carried (a_midi s) /\
  sounding (a_midi s) n c p d m /\ (c = 6 + n -> without remaps before -> d_glide d = 0) /\ psg_done r (pb ++ PNoteOn n q ce v :: pm) s tr /\ Forall pop_ok (pb ++ PNoteOn n q ce v :: pm) /\ ~ In PReset pb /\ 45 <= q /\
  (forall x, In x pm -> quiet n x) /\ ticks pm = frames more /\ (forall env, voice_envelope r before c env -> selected (rom_envs r) n pb = Some env) /\
  asked_volume n 127 (pb ++ PNoteOn n q ce v :: pm) = st_vol (settings (map message all) c) /\
  asked_velocity n 127 (pb ++ PNoteOn n q ce v :: pm) = v /\ asked_pitch n 0 (pb ++ PNoteOn n q ce v :: pm) = pitched (map message all) c p.
Proof.
  assert (Eall : all = (before ++ [AMsg (MNoteOn c p v)]) ++ more) by (rewrite <- app_assoc; reflexivity).
  assert (H' := H). rewrite Eall in H'. destruct (history_app _ _ _ _ _ _ _ H') as (s1 & tr1 & H1).
  destruct (history_score _ _ _ _ _ _ H') as (po & Sc & Dn & Pk). apply score_app in Sc as (s1' & pa & pm & Sa & Sm & ->).
  destruct (history_score _ _ _ _ _ _ H1) as (pa' & Sa' & _). destruct (score_same _ _ _ _ _ _ Sa Sa') as [E1 <-]. subst s1'.
  destruct (song_begins s1 tr1 pa H1 Sa) as (pb & q & ce & d & m & Ep & NR & Lq & Lk & Sel & So & Tq & Gd).
  assert (Ok : Forall aop_ok ((before ++ [AMsg (MNoteOn c p v)]) ++ more)) by apply H'. apply Forall_app in Ok as [Ok1 Ok2].
  destruct powered_ok as [P1 P2]. destruct (score_keeps _ _ _ _ P1 Ok1 Sa) as (Hs1 & _ & _ & Ca).
  assert (Wn : without remapping (before ++ [AMsg (MNoteOn c p v)])) by (assert (X := without_all); rewrite Eall in X; apply without_app in X; apply X).
  destruct (undisturbed_without _ _ U) as (U1 & U2 & U3).
  destruct (score_keeps _ _ _ _ Hs1 Ok2 Sm) as (Hs2 & K2 & K3 & Ca2). destruct (K2 U3) as [K4 K5].
  destruct (score_kept n c p more Hn _ _ _ d m Hs1 (Ca Wn P2) Ok2 U Sm So) as (d' & m' & So' & Ge & Pi & Gd').
  assert (EE : boot_po ++ pa ++ pm = pb ++ PNoteOn n q ce v :: pm) by (rewrite app_assoc, Ep, <- app_assoc; reflexivity).
  assert (EE' : pb ++ PNoteOn n q ce v :: pm = (pb ++ [PNoteOn n q ce v]) ++ pm) by (rewrite <- app_assoc; reflexivity).
  exists pb, q, ce, pm, (pa ++ pm), d', m'.
  split; [rewrite Eall; destruct (history_score _ _ _ _ _ _ H') as (po & Sc & _); assert (X := Sc); apply score_app in X as (sx & px & py & X1 & X2 & ->); destruct (score_same _ _ _ _ _ _ X1 Sa) as [-> ->]; destruct (score_same _ _ _ _ _ _ X2 Sm) as [_ ->]; exact Sc|].
  split; [exact EE|]. split; [exact (Ca2 U1 (Ca Wn P2))|]. split; [exact So'|]. split; [intros X Y; rewrite Gd'; exact (Gd X Y)|]. split; [rewrite <- EE; exact Dn|]. split; [rewrite <- EE; apply Forall_app; split; [exact boot_pops|exact Pk]|].
  split; [exact NR|]. split; [exact Lq|]. split; [exact (gentle_quiet n pm K4 (K3 U2) Ge)|]. split; [exact (score_ticks _ _ _ _ Sm)|]. split; [exact Sel|].
  destruct (history_played _ _ _ _ _ _ H) as ((Hs & _) & cs & B & _). destruct So' as (Hd & Hon & Hmi & Hpi & Hce & Hm & Hpo).
  split; [|split].
  - rewrite EE'. destruct (K5 _ Lk n d' Hn Hd) as [-> _].
    assert (R : Forall (fun m => ~ remapping m) (MCallback true :: map message all)).
    { apply Forall_forall. intros x Hin. exact (plain_messages remapping all (proj1 remapping_plain) (proj2 remapping_plain) without_all x Hin). }
    destruct (ok_ch _ _ _ Hs Hm) as [_ Hc].
    destruct (sounding_settings _ _ _ _ _ R B Hd Hon ltac:(rewrite Hmi; unfold is_chan; lia)) as (X & _). rewrite Hmi, settings_messages in X. exact X.
  - rewrite EE', !asked_velocity_app. cbn [asked_velocity]. rewrite Z.eqb_refl. replace (45 <=? q) with true by lia. cbn [andb].
    destruct (mine_asks n pm v) as [_ ->]. apply gentle_velocity, Ge.
  - rewrite EE', !asked_pitch_app. cbn [asked_pitch]. rewrite Z.eqb_refl. replace (45 <=? q) with true by lia. cbn [andb]. rewrite Tq.
    destruct (mine_asks n pm (total (eff m d))) as [-> _]. rewrite Pi.
    apply (sounding_pitch s tr all d' m' seven_p H without_all); auto. repeat (split; [assumption|]); assumption.
Qed.
Lemma sounds_now po ob : plays (rom_pal r) n po (filter psg_event tr) ob ->
  asked_volume n 127 po = st_vol (settings (map message all) c) -> asked_velocity n 127 po = v -> asked_pitch n 0 po = pitched (map message all) c p ->
  psg_sounds (rom_pal r) tr n (st_vol (settings (map message all) c)) v (pitched (map message all) c p) ob.
Proof.
  intros P E1 E2 E3. unfold plays in P. unfold psg_sounds. rewrite E1, E2, E3, att_filter, tone_filter in P. exact P.
Qed.
Theorem song_once pre junk : voice_envelope r before c (pre ++ 255 :: junk) -> Forall data_byte pre ->
  psg_sounds (rom_pal r) tr n (st_vol (settings (map message all) c)) v (pitched (map message all) c p) (once pre (frames more)).
Proof.
  intros V F. destruct song_run as (pb & q & ce & pm & po & d & m & _ & _ & _ & _ & _ & Dn & Pk & NR & Lq & Qt & Tk & Sel & A1 & A2 & A3).
  apply (sounds_now (pb ++ PNoteOn n q ce v :: pm)); auto. rewrite <- Tk. destruct H as (Hr & _).
  refine (c67_once _ _ _ pb n q ce v pm pre junk _ _ Pk NR Lq Qt (Sel _ V) F Dn). apply Hr.
Qed.
Theorem song_held pre body post junk : voice_envelope r before c (loop_env pre body post junk) -> Forall data_byte pre -> Forall data_byte body -> Forall data_byte post -> body <> [] ->
  psg_sounds (rom_pal r) tr n (st_vol (settings (map message all) c)) v (pitched (map message all) c p) (held pre body (frames more)).
Proof.
  intros V F1 F2 F3 N. destruct song_run as (pb & q & ce & pm & po & d & m & _ & _ & _ & _ & _ & Dn & Pk & NR & Lq & Qt & Tk & Sel & A1 & A2 & A3).
  apply (sounds_now (pb ++ PNoteOn n q ce v :: pm)); auto. rewrite <- Tk. destruct H as (Hr & _).
  refine (c67_held _ _ _ pre body post junk F1 F2 F3 N pb n q ce v pm _ _ Pk NR Lq Qt (Sel _ V) Dn). apply Hr.
Qed.
End Song.
Theorem note_once r hw mem before c p v n more s tr pre junk : psg_note r hw mem before c p v n ->
  history r hw mem (before ++ AMsg (MNoteOn c p v) :: more) s tr -> undisturbed c more -> in_range (before ++ AMsg (MNoteOn c p v) :: more) c p ->
  voice_envelope r before c (pre ++ 255 :: junk) -> Forall data_byte pre ->
  note_sounds r (before ++ AMsg (MNoteOn c p v) :: more) tr n c p v (once pre (frames more)).
Proof. intros (A1 & A2 & A3 & A4 & A5 & A6 & A7 & A8) H U [L1 L2]. exact (song_once r hw mem before c p v n A1 A2 A3 A4 A5 A6 A7 A8 more s tr H U L1 L2 pre junk). Qed.
Theorem note_held r hw mem before c p v n more s tr pre body post junk : psg_note r hw mem before c p v n ->
  history r hw mem (before ++ AMsg (MNoteOn c p v) :: more) s tr -> undisturbed c more -> in_range (before ++ AMsg (MNoteOn c p v) :: more) c p ->
  voice_envelope r before c (loop_env pre body post junk) -> Forall data_byte pre -> Forall data_byte body -> Forall data_byte post -> body <> [] ->
  note_sounds r (before ++ AMsg (MNoteOn c p v) :: more) tr n c p v (held pre body (frames more)).
Proof. intros (A1 & A2 & A3 & A4 & A5 & A6 & A7 & A8) H U [L1 L2]. exact (song_held r hw mem before c p v n A1 A2 A3 A4 A5 A6 A7 A8 more s tr H U L1 L2 pre body post junk). Qed.
