(** A System Reset leaves a state that cannot be told from power-on. *)
From Verif Require Import Base BaseLemmas SynthModel SynthSpec SynthProofs SramModel PsgModel MidiModel MidiSpec MidiProofs MidiEqProofs MidiEffectProofs.
From Verif Require Import DevModel DevSpec DevProofs AppModel AppSpec AppProofs PsgAlikeProofs TwinProofs.
From Verif Require PsgSpec PsgRunProofs MidiCallProofs SynthNotifyProofs AppClaimsProofs MidiNoteProofs MidiOkProofs.

(** ** Who registers callbacks *)
Lemma cb_step op s s' o : ~ registers op -> mop_ok op -> midi_ok s -> steps s op s' o -> md_cb s' = md_cb s.
Proof.
  intros Hr Hop Hs E. unfold steps in E.
  assert (Koff : forall c p, is_chan c -> midi_note_off c p s = WDone s' o -> md_cb s' = md_cb s).
  { intros c p Hc E1. destruct (ok_ch_get _ _ Hs Hc) as (m & Hm & _).
    destruct (MidiNoteProofs.note_off_effect _ _ _ _ _ m Hs Hc Hm E1) as (_ & _ & st & _ & _ & ->). reflexivity. }
  destruct op as [c p v|c p|c k v|c p|c b|data| | |cb]; cbn [midi_step mop_ok] in *.
  - destruct Hop as (Hc & Hp & _). destruct (Z.eqb_spec v 0) as [->|Hv]; [apply (Koff c p); auto|].
    destruct (ok_ch_get _ _ Hs Hc) as (m & Hm & _).
    destruct (midi_note_on_eq c p v s m Hs Hc Hp Hv Hm) as (s1 & o1 & E2 & R). rewrite E in E2. injection E2 as <- <-.
    destruct R; reflexivity.
  - destruct Hop. apply (Koff c p); assumption.
  - destruct Hop as (Hc & Hk & Hv). destruct (ok_ch_get _ _ Hs Hc) as (m & Hm & _).
    destruct (midi_cc_result _ _ _ _ m _ _ Hs Hc Hv Hm E) as (o' & R & _). clear E.
    destruct R as [m' Hf|Hk'|Hk'|Hk'|s1 Hk' E|Hk'|s1 o1 Hk' E|Hk' _|Hk' _|_|o1 Hk' _|_|devs o1 Hk' HH]; try reflexivity.
    + apply (set_poly_eq _ _ _ _ Hs E).
    + rewrite (resetAll_eq _ _ Hs Hc) in E. injection E as <- _. reflexivity.
  - destruct Hop as (Hc & _). destruct (ok_ch_get _ _ Hs Hc) as (m & Hm & _).
    rewrite (midi_program_eq _ _ _ m Hm) in E. injection E as <- <-. reflexivity.
  - destruct Hop as (Hc & _). destruct (ok_ch_get _ _ Hs Hc) as (m & Hm & _).
    rewrite (midi_pitch_bend_eq _ _ _ m Hm) in E. injection E as <- <-. reflexivity.
  - apply midi_sysex_result in E. destruct E as [|t s1 o1 Ed E|a b s1 Ed E|a Ed|a Ed|a Ed|a Ed|o1 _]; try reflexivity.
    + destruct (gm_reset_eq s Hs) as (devs & o2 & o3 & E' & _). rewrite E' in E. injection E as <- <-. reflexivity.
    + assert (Hab : seven a /\ seven b).
      { destruct Hop as [Hop _]. rewrite Ed in Hop. do 4 apply Forall_inv_tail in Hop. split; [exact (Forall_inv Hop)|exact (Forall_inv (Forall_inv_tail Hop))]. }
      destruct Hab as [Ha Hb]. destruct (remap_eq a b s (proj1 Hs) (proj1 Ha) (proj1 Hb)) as [X|(_ & i & d & a' & _ & _ & X & _)]; rewrite X in E; injection E as <-; reflexivity.
    + destruct (a =? 0); reflexivity.
  - unfold reset in E. do 3 apply emit_inv in E as (? & E & ->). cbv zeta in E.
    rewrite reset_channels_eq in E by apply Hs. injection E as <- <-. reflexivity.
  - rewrite (midi_tick_eq _ Hs) in E. injection E as <- <-. reflexivity.
  - exfalso. apply Hr. exists cb. reflexivity.
Qed.

(** ** The sound layers after a reset *)
Section Reset.
Context (r : rom) (Hr : rom_ok r).

Definition fresh_synth (cb : bool) : synth :=
  mkSynth (bits 1 1) (bits 3 0) false false (repeat (preset_to_channel (preset0 r) STEREO_CENTRE) 6) (repeat MAX_VOLUME 6) cb true.

(** Nothing played, nothing stored; [percs] are the percussion flags. *)
Definition fresh (cb : bool) (percs : list bool) (a : devst) : Prop :=
  dev_inv a /\ psg_good r (v_psg a) /\ v_synth a = fresh_synth cb /\ v_user a = repeat None 128 /\
  PsgRunProofs.reset_state (v_psg a) = v_psg a /\
  Forall (fun x => f_vol x = 127 /\ f_vel x = 127) (v_fm a) /\ map f_perc (v_fm a) = percs.

(** Calls that tell a voice what it already has. *)
Definition idle_call (c : dcall) : Prop :=
  match c with
  | DPerc n _ => 0 <= n < 6
  | DVolume v n x => voice_ok v n /\ x = 127
  | DPan v n x => voice_ok v n /\ x = 64
  | DProgram v n x => voice_ok v n /\ x = 0
  | _ => False
  end.
Definition perc_after (l : list bool) (c : dcall) : list bool := match c with DPerc n b => zset l n b | _ => l end.

Lemma fresh_vol cb n : 0 <= n < 6 -> post (SVolume n 127) (fresh_synth cb) = fresh_synth cb.
Proof.
  intros Hn. cbn [post]. assert (C : n = 0 \/ n = 1 \/ n = 2 \/ n = 3 \/ n = 4 \/ n = 5) by lia.
  repeat (destruct C as [-> | C]; [reflexivity|]). subst n. reflexivity.
Qed.
Lemma fresh_stereo cb n : 0 <= n < 6 -> post (SStereo n 3) (fresh_synth cb) = fresh_synth cb.
Proof.
  intros Hn. cbn [post]. assert (C : n = 0 \/ n = 1 \/ n = 2 \/ n = 3 \/ n = 4 \/ n = 5) by lia.
  repeat (destruct C as [-> | C]; [reflexivity|]). subst n. reflexivity.
Qed.
Lemma fresh_program cb n : 0 <= n < 6 -> post (SPreset n (preset0 r)) (fresh_synth cb) = fresh_synth cb.
Proof.
  intros Hn. cbn [post]. assert (C : n = 0 \/ n = 1 \/ n = 2 \/ n = 3 \/ n = 4 \/ n = 5) by lia.
  repeat (destruct C as [-> | C]; [reflexivity|]). subst n. reflexivity.
Qed.

Lemma one_synth op s s' o : synth_ok s -> sop_ok op -> synth_run [op] s = Done tt s' o -> s' = post op s.
Proof.
  intros Hs Ho. destruct (step_runs op s Hs Ho) as (o1 & E & _). unfold synth_run. cbn [runM]. unfold bind. rewrite E.
  intros [= <- _]. reflexivity.
Qed.
Lemma reset_shape x : PsgRunProofs.reset_state x = x -> x = mkPsgSt (map PsgRunProofs.reset_chan [0;1;2;3]) (ps_user x) false.
Proof. intros <-. reflexivity. Qed.
Lemma psg_vol_idle n x : 0 <= n < 4 -> PsgRunProofs.reset_state x = x ->
  psg_run (rom_pal r) (rom_envs r) [PVolume n 127] x = Done tt x [].
Proof.
  intros Hn Hx. rewrite (reset_shape x Hx). generalize (ps_user x) as u. intros u.
  assert (C : n = 0 \/ n = 1 \/ n = 2 \/ n = 3) by lia.
  repeat (destruct C as [-> | C]; [reflexivity|]). subst n. reflexivity.
Qed.
Lemma psg_prog_idle n x : 0 <= n < 4 -> PsgRunProofs.reset_state x = x ->
  psg_run (rom_pal r) (rom_envs r) [PProgram n 0] x = Done tt x [].
Proof.
  intros Hn Hx. rewrite (reset_shape x Hx). generalize (ps_user x) as u. intros u.
  assert (C : n = 0 \/ n = 1 \/ n = 2 \/ n = 3) by lia.
  repeat (destruct C as [-> | C]; [reflexivity|]). subst n. reflexivity.
Qed.

Lemma idle_ok c : idle_call c -> dcall_ok c.
Proof. destruct c; cbn; try contradiction; unfold MidiSpec.seven; intuition (subst; lia). Qed.
Lemma idle_not c : idle_call c -> c <> DFmInit /\ ~ beyond_samples c.
Proof. intros H. split; [intros ->; exact H|]. intros (n & p & ce & v & -> & _). exact H. Qed.

Lemma fm_pointwise (f g : mfch -> Prop) (a b : list mfch) (k : Z -> mfch -> mfch) :
  length b = length a -> (forall n x, zget a n = Some x -> zget b n = Some (k n x)) ->
  (forall n x, f x -> g (k n x)) -> Forall f a -> Forall g b.
Proof.
  intros HL H Hk Hf. apply Forall_of_zget. intros i y Hy. assert (Hi := zget_Some _ _ _ Hy).
  destruct (zget_in_range a i) as [x Hx]; [lia|]. rewrite (H _ _ Hx) in Hy. injection Hy as <-. apply Hk.
  exact (Forall_zget _ _ _ _ Hf Hx).
Qed.
Lemma zget_map {A B} (f : A -> B) l i : zget (map f l) i = option_map f (zget l i).
Proof. unfold zget. destruct (i <? 0); [reflexivity|]. apply nth_error_map. Qed.

Lemma idle_step cb l a det c : fresh cb l a -> idle_call c ->
  exists a' o, perform r det c a = Done tt a' o /\ fresh cb (perc_after l c) a'.
Proof.
  intros (I & G & Es & Eu & Ep & Hf & El) Hc. destruct (idle_not c Hc) as [N1 N2]. assert (Ho := idle_ok c Hc).
  destruct (perform_does r Hr det c a I G Ho ltac:(contradiction) N2) as (a' & o & (E & S & P) & (F1 & F2 & _ & _ & _ & F3 & F4) & I' & G').
  exists a', o. split; [exact E|]. split; [exact I'|]. split; [exact G'|].
  assert (Hs : synth_ok (fresh_synth cb)) by (rewrite <- Es; apply I).
  assert (Vf : forall n, 0 <= n < 6 -> f_vol (fm_of a n) = 127 /\ f_vel (fm_of a n) = 127).
  { intros n Hn. apply (Forall_zget _ _ n _ Hf). apply fm_get; [apply I|exact Hn]. }
  split; [|split; [|split; [|split]]].
  - rewrite Es in S. assert (So := synth_calls_ok r Hr a c (proj1 I) Ho).
    destruct c; cbn in Hc; try contradiction; try destruct v; cbn [synth_calls] in S, So;
      try (injection S as <- _; reflexivity); destruct Hc as [Hn ->]; apply (one_synth _ _ _ _ Hs (Forall_inv So)) in S; rewrite S.
    + rewrite (proj2 (Vf num Hn)). apply (fresh_vol cb num Hn).
    + replace (instrument r a 0) with (preset0 r); [apply (fresh_program cb num Hn)|]. unfold instrument. rewrite Eu. reflexivity.
    + apply (fresh_stereo cb num Hn).
  - rewrite <- Eu. apply zget_ext. intros i _. destruct (zget (v_user a) i) as [u|] eqn:Hu.
    + rewrite (F4 _ _ Hu). destruct c; cbn in Hc; try contradiction; reflexivity.
    + apply zget_None. rewrite F2. apply zget_None. exact Hu.
  - replace (v_psg a') with (v_psg a); [exact Ep|].
    destruct c; cbn in Hc; try contradiction; try destruct v; cbn [psg_calls] in P; try (injection P as P _; exact P);
      destruct Hc as [Hn ->]; [rewrite (psg_vol_idle num _ Hn Ep) in P|rewrite (psg_prog_idle num _ Hn Ep) in P]; injection P as P _; exact P.
  - eapply fm_pointwise; [exact F1|exact F3| |exact Hf]. intros n x Hx.
    destruct c; cbn in Hc; try contradiction; try destruct v; cbn [fm_after]; try exact Hx;
      destruct (_ =? _); try exact Hx; cbn; try exact Hx. destruct Hc as [_ ->]. split; [reflexivity|apply Hx].
  - rewrite <- El. apply zget_ext. intros i _. rewrite zget_map.
    assert (Hl6 : length (v_fm a) = 6%nat) by apply I.
    destruct (zget (v_fm a) i) as [x|] eqn:Hx.
    + rewrite (F3 _ _ Hx). cbn [option_map]. assert (Hi := zget_Some _ _ _ Hx).
      assert (Hm : zget (map f_perc (v_fm a)) i = Some (f_perc x)) by (rewrite zget_map, Hx; reflexivity).
      destruct c; cbn in Hc; try contradiction; cbn [perc_after fm_after]; rewrite ?Hm.
      1-3: destruct v; try reflexivity; destruct (_ =? _); reflexivity.
      destruct (Z.eqb_spec num i) as [->|Hne].
      * rewrite zget_zset_same; [reflexivity|]. rewrite map_length. lia.
      * rewrite zget_zset_other by congruence. exact (eq_sym Hm).
    + replace (zget (v_fm a') i) with (@None mfch) by (symmetry; apply zget_None; rewrite F1; apply zget_None; exact Hx).
      symmetry. apply zget_None. apply zget_None in Hx. intros K. apply Hx.
      destruct c; cbn in Hc; try contradiction; cbn [perc_after] in K; rewrite ?zset_length, map_length in K; exact K.
Qed.
Lemma idle_run cb det cs : forall l a, fresh cb l a -> Forall idle_call cs ->
  exists a' o, perform_all r det cs a = Done tt a' o /\ fresh cb (fold_left perc_after cs l) a'.
Proof.
  induction cs as [|c t IH]; intros l a F H.
  - exists a, []. split; [reflexivity|exact F].
  - destruct (idle_step cb l a det c F (Forall_inv H)) as (a1 & o1 & E1 & F1).
    destruct (IH _ _ F1 (Forall_inv_tail H)) as (a2 & o2 & E2 & F2). exists a2, (o1 ++ o2). split; [|exact F2].
    unfold perform_all. cbn [runM]. eapply bind_done; eassumption.
Qed.

Lemma synth_cleared s : synth_ok s -> post (SInit (preset0 r)) s = fresh_synth (s_cb s).
Proof.
  intros (H1 & H2 & H3 & H4 & H5 & H6). unfold post. destruct s as [a b c d chs vols cb bus]. cbn in *.
  destruct chs as [|c0 [|c1 [|c2 [|c3 [|c4 [|c5 [|]]]]]]]; try discriminate.
  destruct vols as [|v0 [|v1 [|v2 [|v3 [|v4 [|v5 [|]]]]]]]; try discriminate.
  reflexivity.
Qed.
Lemma cleared det a : dev_inv a -> psg_good r (v_psg a) ->
  exists a' o, perform_all r det [DPsgReset; DFmReset; DSmReset] a = Done tt a' o /\
    fresh (s_cb (v_synth a)) (repeat false 6) a'.
Proof.
  intros I G.
  assert (NB : forall c, match c with DPsgReset | DFmReset | DSmReset => True | _ => False end -> ~ beyond_samples c).
  { intros c H (n & p & ce & v & -> & _). exact H. }
  destruct (perform_does r Hr det DPsgReset a I G Logic.I ltac:(discriminate) (NB DPsgReset Logic.I)) as (a1 & o1 & (E1 & S1 & P1) & F1 & I1 & G1).
  destruct (perform_does r Hr det DFmReset a1 I1 G1 Logic.I ltac:(discriminate) (NB DFmReset Logic.I)) as (a2 & o2 & (E2 & S2 & P2) & F2 & I2 & G2).
  destruct (perform_does r Hr det DSmReset a2 I2 G2 Logic.I ltac:(discriminate) (NB DSmReset Logic.I)) as (a3 & o3 & (E3 & S3 & P3) & F3 & I3 & G3).
  exists a3, (o1 ++ o2 ++ o3 ++ []). split.
  { unfold perform_all. cbn [runM]. eapply bind_done; [exact E1|]. eapply bind_done; [exact E2|]. eapply bind_done; [exact E3|reflexivity]. }
  split; [exact I3|]. split; [exact G3|].
  cbn [synth_calls psg_calls] in *. injection S1 as V1 _. injection S3 as V3 _. injection P2 as W2 _. injection P3 as W3 _.
  apply one_synth in S2; [|apply I1|exact (AppClaimsProofs.preset0_ok r Hr)]. fold (preset0 r) in S2. rewrite synth_cleared in S2 by apply I1.
  rewrite (psg_reset_again r Hr) in P1 by exact G. injection P1 as W1 _.
  split; [rewrite <- V3, S2, <- V1; reflexivity|].
  destruct F2 as (L2 & L2' & _ & _ & _ & F2 & F2'). destruct F3 as (L3 & L3' & _ & _ & _ & F3 & F3').
  assert (U1 : length (v_user a1) = 128%nat) by apply I1. assert (M1 : length (v_fm a1) = 6%nat) by apply I1.
  split; [|split; [rewrite <- W3, <- W2, <- W1; reflexivity|]].
  - apply zget_ext. intros i Hi. destruct (Z.lt_ge_cases i 128) as [Hl|Hl].
    + rewrite zget_repeat_in by lia. destruct (zget_in_range (v_user a1) i) as [u Hu]; [lia|].
      rewrite (F3' _ _ (F2' _ _ Hu)). reflexivity.
    + transitivity (@None (option preset)); [apply zget_None; lia|]. symmetry. apply zget_None. rewrite repeat_length. lia.
  - assert (K : forall i x, zget (v_fm a3) i = Some x -> f_vol x = 127 /\ f_vel x = 127 /\ f_perc x = false).
    { intros i x Hx. assert (Hi := zget_Some _ _ _ Hx). destruct (zget_in_range (v_fm a1) i) as [y Hy]; [lia|].
      rewrite (F3 _ _ (F2 _ _ Hy)) in Hx. injection Hx as <-. cbn. auto. }
    split.
    + apply Forall_of_zget. intros i x Hx. destruct (K i x Hx) as (? & ? & _). auto.
    + assert (M3 : length (v_fm a3) = 6%nat) by congruence.
      apply zget_ext. intros i Hi. rewrite zget_map. destruct (Z.lt_ge_cases i 6) as [Hl|Hl].
      * rewrite (zget_repeat_in false 6) by lia. destruct (zget_in_range (v_fm a3) i) as [x Hx]; [lia|]. rewrite Hx. cbn.
        destruct (K i x Hx) as (_ & _ & ->). reflexivity.
      * replace (zget (v_fm a3) i) with (@None mfch) by (symmetry; apply zget_None; lia). symmetry. apply zget_None. rewrite repeat_length. lia.
Qed.
End Reset.

(** ** What a reset makes midi.c do *)
Lemma perc_fold m d l : fold_left perc_after (sync_calls m d) l = zset l (d_num d) (d_midi d =? 9).
Proof.
  unfold sync_calls. rewrite !fold_left_app. cbn [fold_left perc_after].
  repeat match goal with |- context [if ?b then _ else _] => destruct b end; reflexivity.
Qed.
Lemma sync_idle i d : 0 <= i < 13 -> Forall idle_call (sync_calls (chan_at init_chs i) (fresh_dev i d)).
Proof.
  intros Hi. rewrite chan_at_init by (unfold is_chan; lia). unfold sync_calls.
  cbn [d_num d_midi d_vol d_pan d_prog d_bend d_ops fresh_dev init_midi_channel m_vol m_pan m_prog m_bend].
  rewrite Z.eqb_refl.
  assert (V : voice_ok (if i <=? 5 then VFm else if i <=? 9 then VPsg else VSm) (if i <=? 5 then i else if i <=? 9 then u8 (i - 6) else u8 (i - 10)) /\
              0 <= (if i <=? 5 then i else if i <=? 9 then u8 (i - 6) else u8 (i - 10)) < 6).
  { unfold u8. destruct (Z.leb_spec i 5); [cbn; lia|]. destruct (Z.leb_spec i 9); cbn; rewrite Z.mod_small; lia. }
  destruct V as [V1 V2].
  repeat (apply Forall_app; split); repeat match goal with |- context [if ?b then [] else [_]] => destruct b end; try apply Forall_nil;
    (constructor; [|constructor]); cbn [idle_call]; auto.
Qed.
Lemma init_idle l : forall i, 0 <= i -> i + Z.of_nat (length l) <= 13 -> Forall idle_call (init_calls init_chs (fun _ => true) i l).
Proof.
  induction l as [|d t IH]; intros i Hi Hl; cbn [init_calls length] in *; [constructor|].
  apply Forall_app. split; [apply sync_idle; lia|apply IH; lia].
Qed.
(** The percussion flags a reset sets, device channel by device channel. *)
Fixpoint reset_percs (i : Z) (n : nat) (l : list bool) : list bool :=
  match n with
  | O => l
  | S k => reset_percs (i + 1) k (zset l (if i <=? 5 then i else if i <=? 9 then u8 (i - 6) else u8 (i - 10)) (i =? 9))
  end.
Lemma init_percs chs l : forall i p, fold_left perc_after (init_calls chs (fun _ => true) i l) p = reset_percs i (length l) p.
Proof.
  induction l as [|d t IH]; intros i p; cbn [init_calls length reset_percs]; [reflexivity|].
  rewrite fold_left_app, perc_fold, IH. reflexivity.
Qed.

Lemma reset_result s : midi_ok s ->
  midi_step MReset s = WDone (md_set_cb booted (md_cb s))
                    ([DPsgReset; DFmReset; DSmReset] ++ init_calls init_chs (fun _ => true) 0 (md_dev s)).
Proof.
  intros (L & _). cbn [midi_step]. unfold reset. cbv zeta. set (s1 := md_set_dyn _ _).
  assert (R := reset_channels_eq s1 L).
  replace (mkMidi (assign_modes (md_dyn s1) 0 (mapi (init_dev init_chs (fun _ => true)) 0 (md_dev s1))) init_chs
             (md_dyn s1) (md_pref s1) (md_nogm s1) (md_stick s1) (md_inv s1) (md_cb s1)) with (md_set_cb booted (md_cb s)) in R.
  { unfold wbind, wemit. rewrite R. reflexivity. }
  clear R. unfold s1. destruct s as [devs chs dyn pref nogm stick inv cb]. cbn [md_dev md_set_dyn md_dyn md_pref md_nogm md_stick md_inv md_cb] in *.
  do 13 (destruct devs as [|? devs]; [discriminate L|]). destruct devs; [|discriminate L]. reflexivity.
Qed.
Lemma boot_calls_eq : boot_calls = [DPsgInit; DFmInit] ++ [DPsgReset; DFmReset; DSmReset] ++ init_calls init_chs (fun _ => true) 0 (md_dev midi0).
Proof. vm_compute. reflexivity. Qed.

(** ** The state after a reset and the state after power-on *)
Section Main.
Context (r : rom) (Hr : rom_ok r).
Definition reset_flags : list bool := reset_percs 0 13 (repeat false 6).

Lemma reset_fresh s s' o : app_inv r s -> app_step r (AMsg MReset) s = Done tt s' o ->
  a_midi s' = md_set_cb booted (md_cb (a_midi s)) /\ fresh r (s_cb (v_synth (a_dev s))) reset_flags (a_dev s').
Proof.
  intros (Hm & I & G) E. cbn [app_step] in E. unfold app_midi in E. rewrite (reset_result _ Hm) in E.
  destruct (cleared r Hr (detected s) _ I G) as (a1 & o1 & E1 & F1).
  destruct (idle_run r Hr _ (detected s) (init_calls init_chs (fun _ => true) 0 (md_dev (a_midi s))) _ _ F1) as (a2 & o2 & E2 & F2).
  { apply init_idle; [lia|]. destruct Hm as (-> & _). lia. }
  rewrite (perform_all_app _ _ _ _ _ _ _ _ _ E1 E2) in E. apply done_inj in E as (_ & <- & _). split; [reflexivity|].
  cbn [a_dev]. rewrite init_percs in F2. destruct Hm as (L & _). rewrite L in F2. exact F2.
Qed.
Lemma power_fresh hw mem s o : mem_ok mem -> powered r hw mem s o -> fresh r true reset_flags (a_dev s) /\ a_midi s = md_set_cb booted true.
Proof.
  intros Hm P. assert (H0 := devst0_inv mem Hm). assert (He : PsgSpec.envs_ok (rom_envs r)) by apply Hr.
  set (s1 := v_set_psg (devst0 mem) PsgRunProofs.boot_state).
  assert (I1 : dev_inv s1) by exact H0.
  assert (G1 : psg_good r (v_psg s1)) by (exists (-1); exact (PsgRunProofs.boot_inv _ He)).
  assert (E1 : perform r false DPsgInit (devst0 mem) = Done tt s1 []).
  { cbn [perform]. unfold ps, lift. cbn [psg_step devst0 v_psg]. rewrite PsgRunProofs.reset_exec by (exact He || reflexivity). reflexivity. }
  destruct (perform_does r Hr false DFmInit s1 I1 G1 I (fun _ => eq_refl)) as (s2 & o2 & (E2 & S2 & P2) & F2 & I2 & G2); [intros (? & ? & ? & ? & [=] & _)|].
  cbn [synth_calls] in S2. injection S2 as V2 _.
  destruct (cleared r Hr false _ I2 G2) as (a1 & o3 & E3 & F3).
  destruct (idle_run r Hr _ false (init_calls init_chs (fun _ => true) 0 (md_dev midi0)) _ _ F3) as (a2 & o4 & E4 & F4).
  { apply init_idle; [lia|]. cbn. lia. }
  assert (E : perform_all r false boot_calls (devst0 mem) = Done tt a2 (([] ++ o2 ++ []) ++ o3 ++ o4)).
  { rewrite boot_calls_eq. eapply perform_all_app; [|eapply perform_all_app; eassumption].
    unfold perform_all. cbn [runM]. eapply bind_done; [exact E1|]. eapply bind_done; [exact E2|reflexivity]. }
  rewrite init_percs in F4. rewrite <- V2 in F4. change (s_cb (v_synth s1)) with false in F4. change (length (md_dev midi0)) with 13%nat in F4.
  fold reset_flags in F4.
  destruct F4 as (J1 & J2 & J3 & J4 & J5 & J6 & J7).
  destruct (does_syn r (SCallback true) a2 (proj1 (proj1 J1)) Logic.I) as (o5 & E5 & _).
  unfold powered in P. rewrite (app_main_eq r hw mem _ _ _ _ _ _ midi_init_booted E E5) in P.
  apply done_inj in P as (_ & <- & _). cbn [a_dev a_midi]. split; [|reflexivity].
  split; [|split; [exact J2|split; [|split; [exact J4|split; [exact J5|split; [exact J6|exact J7]]]]]].
  - destruct J1 as [(X1 & X2) X3]. split; [|exact X3]. split; [|exact X2]. apply (post_ok (SCallback true)); [exact X1|exact Logic.I].
  - cbn [v_synth v_set_synth post]. rewrite J3. reflexivity.
Qed.

Lemma fresh_twins l a b : fresh r true l a -> fresh r true l b -> twins r a b.
Proof.
  intros (Ia & Ga & Sa & Ua & Pa & Fa & La) (Ib & Gb & Sb & Ub & Pb & Fb & Lb).
  split; [exact Ia|]. split; [exact Ib|]. split; [congruence|]. split; [congruence|]. split.
  - intros n x y Hx Hy. unfold heard.
    destruct (Forall_zget _ _ _ _ Fa Hx) as [-> ->]. destruct (Forall_zget _ _ _ _ Fb Hy) as [-> ->].
    assert (E : f_perc x = f_perc y); [|rewrite E; reflexivity].
    assert (Q : option_map f_perc (zget (v_fm a) n) = option_map f_perc (zget (v_fm b) n)) by (rewrite <- !zget_map, La, Lb; reflexivity).
    rewrite Hx, Hy in Q. injection Q as Q. exact Q.
  - destruct Ga as [ua Ga]. destruct Gb as [ub Gb]. exists (-1). rewrite <- Pa, <- Pb.
    eapply reset_alike; [apply Hr|exact Ga|exact Gb].
Qed.
End Main.

Lemma callback_call r s c b : In (SCallback b) (synth_calls r s c) -> c = DSynth (SCallback b).
Proof.
  destruct c as [v n p ce vel|v n p|v n x|v n x|v n|v n x|v n p ce|n b'|op|e|prog p|prog|n prog|prog|mc n|data| | | | | |k mc key v|mc b'];
    try destruct v; cbn [synth_calls]; intros H; try contradiction;
    try (repeat destruct H as [H|H]; discriminate || contradiction).
  - destruct (playable p); [|contradiction]. destruct (f_perc _); cbn in H; repeat destruct H as [H|H]; discriminate || contradiction.
  - destruct H as [->|H]; [reflexivity|contradiction].
Qed.
Lemma callback_menu m b : ~ MidiCallProofs.menu m (DSynth (SCallback b)).
Proof.
  destruct m; cbn [MidiCallProofs.menu]; intros H; try contradiction.
  - destruct H as [H|[(? & ? & ? & ? & H)|[(? & ? & H)|[(_ & ? & ? & H)|[(? & H & S & _)|[(_ & ? & H)|(_ & ? & H)]]]]]]; try discriminate; try contradiction.
    injection H as <-. exact S.
  - destruct H as [H|(? & ? & ? & ? & H)]; [contradiction|discriminate].
  - destruct H as [[_ H]|[(_ & ? & H)|[(_ & ? & H)|[(_ & ? & ? & ? & H)|[(_ & ? & ? & H)|[(_ & ? & H)|[(_ & ? & H)|(_ & ? & ? & H)]]]]]]]; try contradiction; discriminate.
  - destruct H as [H|[H|[H|H]]]; try contradiction; discriminate.
Qed.

(** Callbacks of the user interface stay registered. *)
Lemma history_cb r hw mem ops s tr : history r hw mem ops s tr -> without registers ops ->
  md_cb (a_midi s) = true /\ s_cb (v_synth (a_dev s)) = true.
Proof.
  intros H. revert H. revert ops s tr. refine (history_ind r hw mem (fun ops s tr => without registers ops -> md_cb (a_midi s) = true /\ s_cb (v_synth (a_dev s)) = true) _ _).
  - intros s tr (Hr & Hm & _ & E) _. destruct (app_main_ok r hw mem Hr Hm) as (s0 & o0 & E0 & _).
    destruct (power_fresh r Hr hw mem s0 o0 Hm E0) as [(_ & _ & F & _) Em].
    rewrite (boot_nothing _ _ _ _ _ E0) in E. apply done_inj in E as (_ & <- & _). rewrite Em, F. auto.
  - intros ops op s tr s' o H IH Ho E W. destruct H as (Hr & Hm & Hops & Eb).
    destruct (history_played r hw mem ops s tr) as (Hi & _); [split; [exact Hr|]; auto|].
    assert (W1 : without registers ops) by (intros m Hin; apply W, in_or_app; left; exact Hin).
    destruct (IH W1) as [C1 C2].
    destruct (app_step_ok r Hr op s Hi Ho) as [(s1 & o1 & so & po & E1 & I1 & [C _] & S & _ & F & _ & cs & Em)|[[E1 _]|[E1 _]]];
      rewrite E in E1; try discriminate. apply done_inj in E1 as (_ & <- & <-). split.
    + rewrite <- C1. eapply cb_step; [| |apply Hi|exact Em].
      * destruct op as [m|]; [apply W, in_or_app; right; left; reflexivity|]. intros [b [=]].
      * destruct op; [exact Ho|exact I].
    + rewrite <- C2.
      assert (NC : Forall (fun x => forall b, x <> SCallback b) so).
      { apply Forall_forall. intros x Hx b ->. destruct (F _ Hx) as (si & c & M & _ & _ & Hin).
        rewrite (callback_call _ _ _ _ Hin) in M. exact (callback_menu _ _ M). }
      clear -C NC. revert C. generalize (v_synth (a_dev s)) (v_synth (a_dev s')) (filter fm_event o). induction NC as [|x t Hx Ht IH]; intros a b l C.
      * injection C as <- _. reflexivity.
      * unfold synth_run in C. cbn [runM] in C. apply bind_inv in C as ([] & s1 & o1 & o2 & E1 & E2 & _).
        destruct (SynthNotifyProofs.nq_step x Hx _ _ _ E1) as [K _]. rewrite <- K. exact (IH _ _ _ E2).
Qed.

Theorem reset_like_power_on r hw mem before s tr hw' mem' s0 tr0 :
  history r hw mem (before ++ [AMsg MReset]) s tr -> without registers before -> history r hw' mem' [] s0 tr0 ->
  app_twins r s s0.
Proof.
  intros H W H0. assert (H' := H). destruct H' as (Hr & Hm & Ho & E). apply boot_snoc in E as (s1 & o1 & o2 & E1 & E2 & _).
  apply Forall_app in Ho as [Ho _].
  assert (Hb : history r hw mem before s1 o1) by (split; [exact Hr|split; [exact Hm|split; [exact Ho|exact E1]]]).
  destruct (history_played _ _ _ _ _ _ Hb) as (Hi & _). destruct (history_cb _ _ _ _ _ _ Hb W) as [C1 C2].
  destruct (reset_fresh r Hr _ _ _ Hi E2) as [Em F]. rewrite C1 in Em. rewrite C2 in F.
  destruct H0 as (_ & Hm' & _ & E0). destruct (app_main_ok r hw' mem' Hr Hm') as (s0' & o0 & P & _).
  destruct (power_fresh r Hr hw' mem' s0' o0 Hm' P) as [F0 Em0].
  rewrite (boot_nothing _ _ _ _ _ P) in E0. apply done_inj in E0 as (_ & <- & _).
  split; [congruence|]. split; [rewrite Em; exact booted_ok|]. exact (fresh_twins r Hr _ _ _ F F0).
Qed.
Theorem reset_same_answers r hw mem before s tr hw' mem' s0 tr0 later :
  history r hw mem (before ++ [AMsg MReset]) s tr -> without registers before -> history r hw' mem' [] s0 tr0 -> Forall aop_ok later ->
  answer (app_run r later s) = answer (app_run r later s0).
Proof.
  intros H W H0 Hl. assert (Hr : rom_ok r) by apply H.
  destruct (run_twins r Hr later s s0 Hl (reset_like_power_on _ _ _ _ _ _ _ _ _ _ H W H0)) as [(f & -> & ->)|(t & t' & o & -> & -> & _)]; reflexivity.
Qed.
