(** Witnesses for the statements about the screen. *)
From Coq Require Import String Ascii.
From Verif Require Import Base BaseLemmas SynthModel SynthSpec MidiModel MidiSpec RomData.
From Verif Require Import DevModel DevSpec AppModel AppSpec AppProofs AppExampleProofs CommModel TwinProofs.
From Verif Require MidiClaimsProofs.
From Verif Require Import UiModel UiSpec UiProofs UiPanelProofs UiRunProofs UiSysProofs UiClaimsProofs.

Definition uop_okb (op : uop) : bool :=
  match op with
  | UMsg m => MidiClaimsProofs.mop_okb m && match m with MCallback _ => false | _ => true end
  | UFrame delta _ _ => (1 <=? delta) && (delta <? 65000)
  end.
Lemma uops_ok ops : forallb uop_okb ops = true -> Forall uop_ok ops.
Proof.
  intros H. apply Forall_forall. intros op Hop. rewrite forallb_forall in H. specialize (H op Hop).
  destruct op as [m|d c l]; cbn in *; [|lia]. apply andb_prop in H as [H1 H2]. split; [apply MidiClaimsProofs.mop_okb_ok, H1|]. intros [b ->]. discriminate.
Qed.
Definition u_view {V} (ops : list uop) (view : sys -> list event -> V) : option V :=
  match u_boot (shipped false) false no_cartridge blank_memory ops with Done _ s tr => Some (view s tr) | Fault _ => None end.
Definition seen (ops : list uop) (s : sys) (tr : list event) : Prop := watched (shipped false) false no_cartridge blank_memory ops s tr.
Lemma u_see {V} ops (view : sys -> list event -> V) v : forallb uop_okb ops = true -> u_view ops view = Some v -> exists s tr, seen ops s tr /\ view s tr = v.
Proof.
  unfold u_view, seen. intros H1 H2.
  destruct (u_boot (shipped false) false no_cartridge blank_memory ops) as [[] s tr|] eqn:E; [|discriminate].
  exists s, tr. split; [|congruence]. split; [apply shipped_ok|]. split; [exact blank_memory_ok|]. split; [apply uops_ok, H1|exact E].
Qed.
Lemma seen_fun ops s tr s' tr' : seen ops s tr -> seen ops s' tr' -> s' = s /\ tr' = tr.
Proof. intros (_ & _ & _ & E) (_ & _ & _ & E'). rewrite E in E'. apply done_inj in E' as (_ & <- & <-). auto. Qed.
Lemma pair_inj {A B} (a c : A) (b d : B) : (a, b) = (c, d) -> a = c /\ b = d.
Proof. intros H. injection H. auto. Qed.
Definition fr : uop := UFrame 1 comm0 None.
Definition fr5 : uop := UFrame 5 comm0 None.
Definition voice (s : sys) (i : Z) : option (bool * Z * Z) := option_map (fun d => (d_on d, d_midi d, d_pitch d)) (zget (md_dev (midi_of s)) i).
Lemma voice_at s i a b c : voice s i = Some (a, b, c) -> exists d, dev_at (midi_of s) i d /\ d_on d = a /\ d_midi d = b /\ d_pitch d = c.
Proof. unfold voice, dev_at. destruct (zget (md_dev (midi_of s)) i) as [d|]; [|discriminate]. intros [= <- <- <-]. eauto. Qed.
Lemma cells_show scr x y t : cells scr x y (List.length (str t)) = str t -> shows scr x y t.
Proof. intros H. apply text_shows, text_cells, H. Qed.

(** ** Notes *)
Definition played_song : list uop := [UMsg (MNoteOn 0 60 100); UMsg (MNoteOn 6 45 100)].
Lemma c74_example : exists s tr d e, seen (played_song ++ [fr]) s tr /\ dev_at (midi_of s) 0 d /\ d_on d = true /\ d_pitch d = 60 /\
  shows (scr_of s) 7 3 "C-4" /\ dev_at (midi_of s) 1 e /\ d_on e = false /\ cells (scr_of s) 7 5 3 = [32; 32; 32] /\ shows (scr_of s) 7 15 "A-2".
Proof.
  destruct (u_see (played_song ++ [fr]) (fun s _ => (voice s 0, voice s 1, cells (scr_of s) 7 3 3, cells (scr_of s) 7 5 3, cells (scr_of s) 7 15 3))
    (Some (true, 0, 60), Some (false, 1, 0), str "C-4", [32; 32; 32], str "A-2")) as (s & tr & W & V); [reflexivity|vm_compute; reflexivity|].
  apply pair_inj in V as [V V5]. apply pair_inj in V as [V V4]. apply pair_inj in V as [V V3]. apply pair_inj in V as [V1 V2]. apply voice_at in V1 as (d & D1 & D2 & _ & D4). apply voice_at in V2 as (e & E1 & E2 & _).
  exists s, tr, d, e. split; [exact W|]. split; [exact D1|]. split; [exact D2|]. split; [exact D4|]. split; [apply cells_show, V3|].
  split; [exact E1|]. split; [exact E2|]. split; [exact V4|]. apply cells_show, V5.
Qed.
(** Key 21 has a name, A-0, yet is shown as unknown; key 0 sounds and is not shown. *)
Lemma c74_low : exists s tr d e, seen ([UMsg (MNoteOn 0 21 100); UMsg (MNoteOn 1 0 100)] ++ [fr]) s tr /\
  dev_at (midi_of s) 0 d /\ d_on d = true /\ d_pitch d = 21 /\ ~ shows_note (scr_of s) 0 21 /\
  dev_at (midi_of s) 1 e /\ d_on e = true /\ d_pitch e = 0 /\ no_note (scr_of s) 1.
Proof.
  destruct (u_see ([UMsg (MNoteOn 0 21 100); UMsg (MNoteOn 1 0 100)] ++ [fr]) (fun s _ => (voice s 0, voice s 1, cells (scr_of s) 7 3 3, cells (scr_of s) 7 5 3))
    (Some (true, 0, 21), Some (true, 1, 0), str "???", [32; 32; 32])) as (s & tr & W & V); [reflexivity|vm_compute; reflexivity|].
  apply pair_inj in V as [V V4]. apply pair_inj in V as [V V3]. apply pair_inj in V as [V1 V2]. apply voice_at in V1 as (d & D1 & D2 & _ & D4). apply voice_at in V2 as (e & E1 & E2 & _ & E4).
  exists s, tr, d, e. split; [exact W|]. split; [exact D1|]. split; [exact D2|]. split; [exact D4|]. split; [|split; [exact E1|]; split; [exact E2|]; split; [exact E4|]].
  - intros [N _]. assert (N' : scr_of s 7 3 = 65) by exact (N 0%nat "A"%char eq_refl). assert (M : scr_of s 7 3 = 63) by exact (f_equal (hd 0) V3).
    rewrite N' in M. discriminate M.
  - intros k Hk. assert (C : k = 0 \/ k = 1 \/ k = 2) by lia.
    destruct C as [->|[->| ->]]; [exact (f_equal (fun l => nth 0 l 0) V4)|exact (f_equal (fun l => nth 1 l 0) V4)|exact (f_equal (fun l => nth 2 l 0) V4)].
Qed.
Lemma c74_refuted : ~ (forall r mw hw mem ops delta c log s tr i d, watched r mw hw mem (ops ++ [UFrame delta c log]) s tr -> 0 <= i < 10 ->
  dev_at (midi_of s) i d -> d_on d = true -> shows_note (scr_of s) i (d_pitch d)).
Proof.
  intros C. destruct c74_low as (s & tr & d & e & W & D1 & D2 & D3 & N & _). apply N. rewrite <- D3. exact (C _ _ _ _ _ _ _ _ _ _ 0 d W ltac:(lia) D1 D2).
Qed.

(** ** Mappings *)
Definition remap_song : list uop := [UMsg (own_sysex 0 [4; 3])].
Lemma c75_example : exists s tr d, seen (remap_song ++ [fr5]) s tr /\ dev_at (midi_of s) 3 d /\ d_midi d = 4 /\
  shows_mapping (scr_of s) 3 4 /\ shows_mapping (scr_of s) 0 0.
Proof.
  destruct (u_see (remap_song ++ [fr5]) (fun s _ => (voice s 3, cells (scr_of s) 4 9 2, cells (scr_of s) 4 3 2)) (Some (false, 4, 0), str " 5", str " 1"))
    as (s & tr & W & V); [reflexivity|vm_compute; reflexivity|].
  apply pair_inj in V as [V V3]. apply pair_inj in V as [V1 V2]. apply voice_at in V1 as (d & D1 & _ & D3 & _).
  exists s, tr, d. split; [exact W|]. split; [exact D1|]. split; [exact D3|]. split.
  - change (number (cells (scr_of s) 4 9 2) = Some 5). rewrite V2. reflexivity.
  - change (number (cells (scr_of s) 4 3 2) = Some 1). rewrite V3. reflexivity.
Qed.
(** With every device channel on MIDI channel 1 the old mapping stays on the screen. *)
Definition all_to_one : list uop := map (fun i => UMsg (own_sysex 0 [0; i])) (zseq 0 10).
Lemma c75_refuted : ~ (forall r mw hw mem ops later s tr, watched r mw hw mem (ops ++ later) s tr -> Forall is_frame later -> 5 <= elapsed later ->
  shows_mappings (scr_of s) (midi_of s)).
Proof.
  intros C. destruct (u_see (all_to_one ++ [fr5]) (fun s _ => (voice s 3, cells (scr_of s) 4 9 2)) (Some (false, 0, 0), str " 4"))
    as (s & tr & W & V); [reflexivity|vm_compute; reflexivity|].
  apply pair_inj in V as [V1 V2]. apply voice_at in V1 as (d & D1 & _ & D3 & _).
  assert (F : Forall is_frame [fr5]) by (constructor; [exact I|constructor]).
  assert (K := C _ _ _ _ _ _ _ _ W F ltac:(cbn; lia) 3 d ltac:(lia) D1). rewrite D3 in K.
  change (number (cells (scr_of s) 4 9 2) = Some 1) in K. rewrite V2 in K. discriminate K.
Qed.

(** ** Controllers and programs *)
Lemma watched_prefix r mw hw mem ops later : forall s tr, watched r mw hw mem (ops ++ later) s tr -> exists s1 tr1, watched r mw hw mem ops s1 tr1.
Proof.
  induction later as [|x later IH] using rev_ind; intros s tr W; [rewrite app_nil_r in W; eauto|].
  rewrite app_assoc in W. apply watched_inv in W as (s1 & tr1 & o & W1 & _). eapply IH; exact W1.
Qed.
Lemma undisturbed_frames r mw hw mem i later : Forall is_frame later -> forall ops s tr s' tr', watched r mw hw mem ops s tr ->
  watched r mw hw mem (ops ++ later) s' tr' -> undisturbed r mw i s later s'.
Proof.
  induction later as [|op later IH]; intros F ops s tr s' tr' W W'.
  - rewrite app_nil_r in W'. destruct W as (_ & _ & _ & E), W' as (_ & _ & _ & E'). rewrite E in E'. apply done_inj in E' as (_ & -> & _). constructor.
  - inversion F as [|x l F1 F2]; subst. replace (ops ++ op :: later) with ((ops ++ [op]) ++ later) in W' by (rewrite <- app_assoc; reflexivity).
    destruct (watched_prefix _ _ _ _ _ _ _ _ W') as (s1 & tr1 & P). assert (P' := P). apply watched_inv in P' as (s0 & tr0 & o & W0 & Q1 & Q2 & Q3).
    assert (E0 : s0 = s). { destruct W as (_ & _ & _ & E), W0 as (_ & _ & _ & E'). rewrite E in E'. apply done_inj in E' as (_ & -> & _). reflexivity. }
    subst s0. eapply ud_cons; [exact Q1|exact Q2| |eapply IH; [exact F2|exact P|exact W']].
    intros (c & d & [(k & v & ->)|(v & ->)] & _); exact F1.
Qed.
Lemma c76_example : exists s0 tr s1 o d s2, seen [] s0 tr /\ u_step (shipped false) false (UMsg (MCc 0 7 100)) s0 = Done tt s1 o /\
  dev_at (midi_of s1) 0 d /\ d_midi d = 0 /\ undisturbed (shipped false) false 0 s1 [fr] s2 /\ cells (scr_of s2) 11 3 7 = str "CC07=64".
Proof.
  destruct (u_see ([] ++ [UMsg (MCc 0 7 100)]) (fun s _ => voice s 0) (Some (false, 0, 0))) as (s1 & tr1 & W1 & V1); [reflexivity|vm_compute; reflexivity|].
  destruct (u_see (([] ++ [UMsg (MCc 0 7 100)]) ++ [fr]) (fun s _ => cells (scr_of s) 11 3 7) (str "CC07=64")) as (s2 & tr2 & W2 & V2); [reflexivity|vm_compute; reflexivity|].
  assert (U : undisturbed (shipped false) false 0 s1 [fr] s2) by (eapply undisturbed_frames; [constructor; [exact I|constructor]|exact W1|exact W2]).
  apply watched_inv in W1 as (s0 & tr & o & W0 & _ & E & _). apply voice_at in V1 as (d & D1 & _ & D3 & _).
  exists s0, tr, s1, o, d, s2. split; [exact W0|]. split; [exact E|]. split; [exact D1|]. split; [exact D3|]. split; [exact U|exact V2].
Qed.
(** A program number drawn over a controller leaves the controller's value standing. *)
Lemma c76_refuted : ~ (forall r mw hw mem ops s0 tr c v s1 o i d later s2, watched r mw hw mem ops s0 tr -> mop_ok (MProgram c v) ->
  u_step r mw (UMsg (MProgram c v)) s0 = Done tt s1 o -> 0 <= i < 10 -> dev_at (midi_of s1) i d -> d_midi d = c ->
  undisturbed r mw i s1 later s2 -> 1 <= frames later <= 150 -> shows_number (scr_of s2) 13 (row i) 5 v).
Proof.
  intros C. set (pre := [UMsg (MCc 0 7 100); fr]).
  destruct (u_see (pre ++ [UMsg (MProgram 0 5)]) (fun s _ => voice s 0) (Some (false, 0, 0))) as (s1 & tr1 & W1 & V1); [reflexivity|vm_compute; reflexivity|].
  destruct (u_see ((pre ++ [UMsg (MProgram 0 5)]) ++ [fr]) (fun s _ => cells (scr_of s) 13 3 5) (str "5  64")) as (s2 & tr2 & W2 & V2); [reflexivity|vm_compute; reflexivity|].
  assert (U : undisturbed (shipped false) false 0 s1 [fr] s2) by (eapply undisturbed_frames; [constructor; [exact I|constructor]|exact W1|exact W2]).
  apply watched_inv in W1 as (s0 & tr & o & W0 & _ & E & _). apply voice_at in V1 as (d & D1 & _ & D3 & _).
  assert (Mo : mop_ok (MProgram 0 5)) by (apply MidiClaimsProofs.mop_okb_ok; reflexivity).
  assert (K := C _ _ _ _ _ _ _ 0 5 s1 o 0 d [fr] s2 W0 Mo E ltac:(lia) D1 D3 U ltac:(cbn; lia)).
  change (number (cells (scr_of s2) 13 3 5) = Some 5) in K. rewrite V2 in K. discriminate K.
Qed.

(** ** The panel *)
Definition panel_song : list uop := [UMsg (MCc 0 83 127); UMsg (MCc 0 14 127)].
Lemma c77_example : exists s tr s0 tr0 ch, seen [] s0 tr0 /\ seen ([] ++ panel_song ++ [fr]) s (tr0 ++ tr) /\ Forall (fun op => ~ is_reset op) panel_song /\
  selected tr = Some 0 /\ first_fm (midi_of s) 0 0 /\ zget (s_chans (synth_of s)) 0 = Some ch /\ c_alg ch = 7 /\ shows_number (scr_of s) 23 5 1 7.
Proof.
  destruct (u_see [] (fun _ tr => selected tr) None) as (s0 & tr0 & W0 & V0); [reflexivity|vm_compute; reflexivity|].
  destruct (u_see ([] ++ panel_song ++ [fr]) (fun s tr => (selected tr, voice s 0, option_map c_alg (zget (s_chans (synth_of s)) 0), cells (scr_of s) 23 5 1))
    (Some 0, Some (false, 0, 0), Some 7, str "7")) as (s & tr & W & V); [reflexivity|vm_compute; reflexivity|].
  apply pair_inj in V as [V V4]. apply pair_inj in V as [V V3]. apply pair_inj in V as [V1 V2]. apply voice_at in V2 as (d & D1 & _ & D3 & _).
  destruct (zget (s_chans (synth_of s)) 0) as [ch|] eqn:Ech; [|discriminate]. cbn in V3. injection V3 as V3.
  assert (T : exists t, tr = tr0 ++ t).
  { revert W W0. unfold seen. clear. cbn [Datatypes.app panel_song]. intros W W0.
    change [UMsg (MCc 0 83 127); UMsg (MCc 0 14 127); fr] with ((([] ++ [UMsg (MCc 0 83 127)]) ++ [UMsg (MCc 0 14 127)]) ++ [fr]) in W.
    apply watched_inv in W as (s1 & t1 & o1 & W1 & _ & _ & ->). apply watched_inv in W1 as (s2 & t2 & o2 & W2 & _ & _ & ->).
    apply watched_inv in W2 as (s3 & t3 & o3 & W3 & _ & _ & ->). destruct (seen_fun _ _ _ _ _ W0 W3) as (_ & ->). exists (o3 ++ o2 ++ o1). rewrite <- !app_assoc. reflexivity. }
  destruct T as (t & ->). exists s, t, s0, tr0, ch. split; [exact W0|]. split; [exact W|].
  split; [repeat constructor; intros X; discriminate X|]. split; [rewrite selected_app in V1; change (fold_left sel_step t (selected tr0) = Some 0) in V1; rewrite V0 in V1; exact V1|].
  split; [split; [lia|]; split; [exists d; split; [exact D1|exact D3]|intros; lia]|]. split; [exact Ech|]. split; [exact V3|].
  unfold shows_number. rewrite V4. reflexivity.
Qed.
(** Switched to a MIDI channel that no FM channel plays, the panel goes on showing the last one. *)
Lemma c77_refuted : ~ (forall r mw hw mem ops delta cm log s tr c, watched r mw hw mem (ops ++ [UFrame delta cm log]) s tr -> selected tr = Some c ->
  shows_number (scr_of s) 22 3 2 (c + 1)).
Proof.
  intros C. destruct (u_see ([UMsg (MCc 0 83 127); fr; UMsg (MCc 6 83 127)] ++ [fr]) (fun s tr => (selected tr, cells (scr_of s) 22 3 2)) (Some 6, str "1 "))
    as (s & tr & W & V); [reflexivity|vm_compute; reflexivity|]. apply pair_inj in V as [V1 V2].
  assert (K := C _ _ _ _ _ _ _ _ _ _ _ W V1). unfold shows_number in K. rewrite V2 in K. discriminate K.
Qed.
(** A system reset resets the FM channel but not what the panel shows of it. *)
Lemma c77_reset_refuted : ~ (forall r mw hw mem ops delta cm log s tr c n ch, watched r mw hw mem (ops ++ [UFrame delta cm log]) s tr -> selected tr = Some c ->
  first_fm (midi_of s) c n -> zget (s_chans (synth_of s)) n = Some ch -> shows_channel (scr_of s) (synth_of s) c n ch).
Proof.
  intros C. destruct (u_see ([UMsg (MCc 0 83 127); UMsg (MCc 0 14 127); fr; UMsg MReset] ++ [fr])
      (fun s tr => (selected tr, voice s 0, option_map c_alg (zget (s_chans (synth_of s)) 0), cells (scr_of s) 23 5 1)) (Some 0, Some (false, 0, 0), Some 2, str "7"))
    as (s & tr & W & V); [reflexivity|vm_compute; reflexivity|].
  apply pair_inj in V as [V V4]. apply pair_inj in V as [V V3]. apply pair_inj in V as [V1 V2]. apply voice_at in V2 as (d & D1 & _ & D3 & _).
  destruct (zget (s_chans (synth_of s)) 0) as [ch|] eqn:Ech; [|discriminate]. cbn in V3. injection V3 as V3.
  assert (F : first_fm (midi_of s) 0 0) by (split; [lia|]; split; [exists d; split; [exact D1|exact D3]|intros; lia]).
  destruct (C _ _ _ _ _ _ _ _ _ _ _ _ _ W V1 F Ech) as (_ & _ & K & _). rewrite V3 in K. unfold shows_number in K. rewrite V4 in K. discriminate K.
Qed.

(** ** The screen and the rest *)
Definition lost_glide : list uop := [UMsg (MCc 0 65 127); UMsg (MCc 0 5 0); UMsg (MNoteOn 0 5 100); UMsg (MNoteOn 0 1 100); fr; fr].
Lemma c78_refuted : ~ (forall r mw hw mem ops a tr, rom_ok r -> mem_ok mem -> Forall uop_ok ops -> app_boot r hw mem (map heard ops) = Done tt a tr ->
  exists u, watched r mw hw mem ops (mkSys a u) tr).
Proof.
  intros C. assert (F : match u_boot (shipped false) false no_cartridge blank_memory lost_glide with Fault _ => True | Done _ _ _ => False end) by (vm_compute; exact Logic.I).
  assert (G : match app_boot (shipped false) no_cartridge blank_memory (map heard lost_glide) with Fault _ => False | Done _ _ _ => True end) by (vm_compute; exact Logic.I).
  destruct (app_boot (shipped false) no_cartridge blank_memory (map heard lost_glide)) as [[] a tr|] eqn:E; [|exact G].
  destruct (C (shipped false) false no_cartridge blank_memory lost_glide a tr (shipped_ok false) blank_memory_ok (uops_ok lost_glide eq_refl) E) as (u & _ & _ & _ & B).
  rewrite B in F. exact F.
Qed.
Lemma c78_example : Forall uop_ok (played_song ++ [fr]) /\ Forall (fun op => forall m, op = UMsg m -> ~ is_cc 65 m) (played_song ++ [fr]) /\
  exists a tr, app_boot (shipped false) no_cartridge blank_memory (map heard (played_song ++ [fr])) = Done tt a tr.
Proof.
  split; [apply uops_ok; reflexivity|]. split.
  - repeat constructor; intros m [= <-] (c & v & X); discriminate X.
  - assert (G : match app_boot (shipped false) no_cartridge blank_memory (map heard (played_song ++ [fr])) with Fault _ => False | Done _ _ _ => True end) by (vm_compute; exact Logic.I).
    destruct (app_boot (shipped false) no_cartridge blank_memory (map heard (played_song ++ [fr]))) as [[] a tr|]; [eauto|contradiction].
Qed.

(** ** Icons and transport *)
Definition pro_frame : uop := UFrame 5 (mkComm (Some 1%nat) 0 0) None.
Lemma c79_example : exists s tr, seen ([UMsg (own_sysex 3 [1])] ++ [pro_frame]) s tr /\ md_dyn (midi_of s) = true /\ routing_icon s = true /\
  shows_mode (scr_of s) 3.
Proof.
  destruct (u_see ([UMsg (own_sysex 3 [1])] ++ [pro_frame]) (fun s _ => (md_dyn (midi_of s), routing_icon s, cells (scr_of s) 9 26 7)) (true, true, [2200; 2201; 2202; 2203; 2204; 2205; 2206]))
    as (s & tr & W & V); [reflexivity|vm_compute; reflexivity|]. apply pair_inj in V as [V V3]. apply pair_inj in V as [V1 V2].
  exists s, tr. split; [exact W|]. split; [exact V1|]. split; [exact V2|].
  intros k Hk. assert (D : k = 0 \/ k = 1 \/ k = 2 \/ k = 3 \/ k = 4 \/ k = 5 \/ k = 6) by lia.
  repeat destruct D as [->|D]; [..|subst k]; match goal with |- scr_of s (9 + ?j) 26 = _ => exact (f_equal (fun l => nth (Z.to_nat j) l 0) V3) end.
Qed.

(** ** The log *)
Definition say (t : string) : uop := UFrame 5 comm0 (Some (str t)).
Lemma c81_example : exists s tr, seen [say "Hello"; say "World"] s tr /\ logged 0 [say "Hello"; say "World"] = [str "Hello"] ++ [str "World"] /\
  shows (scr_of s) 4 23 "Hello" /\ shows (scr_of s) 4 24 "World".
Proof.
  destruct (u_see [say "Hello"; say "World"] (fun s _ => (cells (scr_of s) 4 23 5, cells (scr_of s) 4 24 5)) (str "Hello", str "World"))
    as (s & tr & W & V); [reflexivity|vm_compute; reflexivity|]. apply pair_inj in V as [V1 V2].
  exists s, tr. split; [exact W|]. split; [reflexivity|]. split; apply cells_show; assumption.
Qed.
(** The end of a message of 36 characters outlives the clearing of its line. *)
Lemma c81_refuted : ~ (forall r mw hw mem ops s tr l m, watched r mw hw mem ops s tr -> logged 0 ops = l ++ [m] -> Nat.even (List.length l) = true ->
  forall x, 4 + Z.of_nat (List.length m) <= x < 40 -> scr_of s x 23 = 32).
Proof.
  set (ops := [say "This message is thirty-six long ----"; say "Second"; say "Third"]). intros C.
  destruct (u_see ops (fun s _ => scr_of s 38 23) 45) as (s & tr & W & V); [reflexivity|vm_compute; reflexivity|].
  assert (K := C _ _ _ _ _ _ _ [str "This message is thirty-six long ----"; str "Second"] (str "Third") W eq_refl eq_refl 38 ltac:(cbn; lia)). rewrite V in K. discriminate K.
Qed.

(** ** What is attached *)
Definition with_pro : hardware := mkHw 0xFF00 0x55A0.
Definition with_x7 : hardware := mkHw 0x4000 0.
Lemma boots r mw hw mem : rom_ok r -> mem_ok mem -> exists s tr, watched r mw hw mem [] s tr.
Proof.
  intros Hr Hm. destruct (u_main_ok r mw hw mem Hr Hm) as (a1 & u & o & E1 & P & _). exists (mkSys a1 u), (o ++ []). split; [exact Hr|]. split; [exact Hm|]. split; [constructor|].
  unfold u_boot. eapply bind_done; [exact E1|reflexivity].
Qed.
Lemma c82_example : exists s tr s' tr', watched (shipped false) false with_pro blank_memory [] s tr /\ shows_mode (scr_of s) DISCOVERY /\ hw_ok with_pro /\ sees_pro with_pro /\
  watched (shipped false) false with_x7 blank_memory [] s' tr' /\ shows_mode (scr_of s') DISCOVERY /\ hw_ok with_x7 /\ ~ sees_pro with_x7 /\ sees_x7 with_x7.
Proof.
  destruct (boots (shipped false) false with_pro blank_memory (shipped_ok false) blank_memory_ok) as (s & tr & W).
  destruct (boots (shipped false) false with_x7 blank_memory (shipped_ok false) blank_memory_ok) as (s' & tr' & W'). exists s, tr, s', tr'.
  split; [exact W|]. split; [eapply waiting_shown; [exact W|constructor]|]. split; [unfold hw_ok; cbn; lia|]. split; [reflexivity|].
  split; [exact W'|]. split; [eapply waiting_shown; [exact W'|constructor]|]. split; [unfold hw_ok; cbn; lia|]. split; [intros X; discriminate X|right; reflexivity].
Qed.

(** ** The lamps *)
(** Three of four polls found a byte: lamps 1 to 4 are on; then none of ten: all off. *)
Definition busy_frame : uop := UFrame 15 (mkComm (Some 1%nat) 1 3) None.
Definition idle_frame : uop := UFrame 15 (mkComm (Some 1%nat) 10 0) None.
Lemma c83_example : exists s tr s' tr', seen [UFrame 14 comm0 None; fr; busy_frame; fr5] s tr /\ measured 0 [UFrame 14 comm0 None; fr; busy_frame; fr5] = [comm0] ++ [mkComm (Some 1%nat) 1 3] /\
  busy_percent (mkComm (Some 1%nat) 1 3) = 75 /\ lamp (scr_of s) 0 true /\ lamp (scr_of s) 3 true /\
  seen [busy_frame; idle_frame] s' tr' /\ lamp (scr_of s') 0 false /\ lamp (scr_of s') 3 false.
Proof.
  destruct (u_see [UFrame 14 comm0 None; fr; busy_frame; fr5] (fun s _ => (scr_of s 2 26, scr_of s 5 26)) (1000, 1003)) as (s & tr & H & C); [reflexivity|vm_compute; reflexivity|].
  destruct (u_see [busy_frame; idle_frame] (fun s _ => (scr_of s 2 26, scr_of s 5 26)) (1004, 1007)) as (s' & tr' & H' & C'); [reflexivity|vm_compute; reflexivity|].
  apply pair_inj in C as [C1 C2]. apply pair_inj in C' as [C3 C4]. exists s, tr, s', tr'. repeat (split; [assumption || reflexivity|]). exact C4.
Qed.
