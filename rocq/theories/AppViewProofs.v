(** One FM channel, seen from the calls midi.c has made so far. *)
From Verif Require Import Base BaseLemmas PitchModel SynthModel SynthSpec SynthProofs SynthMirrorProofs SynthClaimsProofs SynthViewProofs.
From Verif Require Import SramModel PsgModel MidiModel DevModel DevSpec DevProofs AppModel AppSpec AppProofs AppTraceProofs AppClaimsProofs.
From Verif Require PsgSpec PsgRunProofs SramSpec MidiSpec MidiEffectProofs MidiCallProofs.

(** midi_fm.c's volume, velocity and percussion flag of the channel, and synth.c's view. *)
Record cview := mkCv { cv_vol : Z; cv_vel : Z; cv_perc : bool; cv_sv : sview; cv_user : bool (** user presets may be stored *) }.

(** Preset unknown. *)
Definition sv_edit (v : sview) : sview := mkSv (v_key v) (v_vol v) (v_side v) (v_pre v) (v_frq v) true (v_raw v).
Lemma sv_edit_holds n v v' s tr : sv_holds n v s tr -> v_key v = v_key v' -> v_vol v = v_vol v' -> v_side v = v_side v' -> v_frq v = v_frq v' -> v_raw v = v_raw v' ->
  sv_holds n (sv_edit v') s tr.
Proof. intros (H1 & H2 & H3 & H4) E1 E2 E3 E4 E5. unfold sv_holds; cbn. rewrite <- E1, <- E2, <- E3, <- E4, <- E5. split; [exact H1|]. split; [exact H2|]. split; [discriminate|exact H4]. Qed.

Section Calls.
Context (r : rom).
Definition rom_preset (p : Z) : preset := nth (Z.to_nat p) (rom_presets r) no_preset.
Definition cv_sops (w : cview) (c : dcall) : list sop :=
  match c with
  | DNoteOn VFm n p ce v =>
      if playable p then
        let key := if cv_perc w then snd (drum r p) else p in
        (if cv_perc w then [SPreset n (fst (drum r p))] else []) ++
        [SVolume n (loudness (cv_vol w) v); SPitch n (pitch_to_octave key) (freq_of r key ce); SNoteOn n]
      else []
  | DNoteOff VFm n _ | DAllOff VFm n => [SNoteOff n]
  | DVolume VFm n v => [SVolume n (loudness v (cv_vel w))]
  | DProgram VFm n p => [SPreset n (rom_preset p)]
  | DPan VFm n v => [SStereo n (pan_side v)]
  | DPitch VFm n p ce => [SPitch n (pitch_to_octave p) (freq_of r p ce)]
  | DSynth op => [op]
  | DFmReset => [SInit (rom_preset 0)]
  | _ => []
  end.
Definition cv_step (n : Z) (w : cview) (c : dcall) : cview :=
  let v := fold_left (sv_step n) (cv_sops w c) (cv_sv w) in
  match c with
  | DNoteOn VFm m p ce x => if (m =? n) && playable p then mkCv (cv_vol w) x (cv_perc w) v (cv_user w) else w
  | DVolume VFm m x => if m =? n then mkCv x (cv_vel w) (cv_perc w) v (cv_user w) else w
  | DProgram VFm m x => mkCv (cv_vol w) (cv_vel w) (cv_perc w) (if cv_user w && (m =? n) then sv_edit v else v) (cv_user w)
  | DPerc m b => if m =? n then mkCv (cv_vol w) (cv_vel w) b (cv_sv w) (cv_user w) else w
  | DFmReset => mkCv 127 127 false v false
  | DStore _ _ | DStoreFrom _ _ => mkCv (cv_vol w) (cv_vel w) (cv_perc w) v true
  | _ => mkCv (cv_vol w) (cv_vel w) (cv_perc w) v (cv_user w)
  end.
Definition sv0 : sview := mkSv (Some false) 127 3 (rom_preset 0) None false false.
Definition cv0 : cview := mkCv 127 127 false sv0 false.

Definition user_none (s : devst) : Prop := forall n, 0 <= n < 128 -> zget (v_user s) n = Some None.
Definition cv_holds (n : Z) (w : cview) (s : devst) (tr : list event) : Prop :=
  f_vol (fm_of s n) = cv_vol w /\ f_vel (fm_of s n) = cv_vel w /\ f_perc (fm_of s n) = cv_perc w /\
  sv_holds n (cv_sv w) (v_synth s) tr /\ (cv_user w = false -> user_none s).

(** No user presets. *)
Definition unstored (c : dcall) : Prop := (forall n p, c <> DStore n p) /\ (forall n p, c <> DStoreFrom n p).

Lemma sv_other n m ops v : m <> n -> Forall (fun op => sop_chan op = Some m /\ match op with SSpecialVolume _ _ => False | _ => True end) ops ->
  fold_left (sv_step n) ops v = v.
Proof.
  intros N. induction ops as [|op t IH]; intros H; [reflexivity|]. apply Forall_cons_iff in H as [[H1 H2] H3]. cbn [fold_left].
  assert (E : sv_step n v op = v).
  { destruct op; cbn in *; try discriminate; try contradiction; injection H1 as ->; destruct (Z.eqb_spec m n); congruence. }
  rewrite E. apply IH, H3.
Qed.

Lemma sv_fm n v s tr : sv_holds n v s tr <-> sv_holds n v s (filter fm_event tr).
Proof. unfold sv_holds. rewrite <- keys_fm, <- freq_fm. reflexivity. Qed.

Lemma sv_calls n s w c tr s' : 0 <= n < 6 ->
  f_vol (fm_of s n) = cv_vol w -> f_vel (fm_of s n) = cv_vel w -> f_perc (fm_of s n) = cv_perc w ->
  (forall p, c = DProgram VFm n p -> cv_user w = false -> instrument r s p = rom_preset p) ->
  sv_holds n (fold_left (sv_step n) (synth_calls r s c) (cv_sv w)) s' tr -> sv_holds n (cv_sv (cv_step n w c)) s' tr.
Proof.
  intros Hn Hv Hl Hp Hi.
  destruct c as [v m x ce vel|v m x|v m x|v m x|v m|v m x|v m x ce|m b|op|e|prog q|prog|m prog|prog|mc m|data| | | | | |k mc key v|mc b];
    cbn [synth_calls cv_step cv_sops]; try (intros H; exact H); try (destruct v; try (intros H; exact H)).
  - destruct (Z.eqb_spec m n) as [->|N]; cbn [andb]; destruct (playable x); try (intros H; exact H).
    + rewrite Hp, Hv. intros H; exact H.
    + intros H. rewrite (sv_other n m) in H; [exact H|exact N|]. destruct (f_perc (fm_of s m)); repeat (constructor; [cbn; auto|]); constructor.
  - destruct (Z.eqb_spec m n) as [->|N]; [cbn [cv_sv]; rewrite Hl; intros H; exact H|].
    intros H. rewrite (sv_other n m) in H; [exact H|exact N|]. repeat (constructor; [cbn; auto|]); constructor.
  - destruct (Z.eqb_spec m n) as [->|N].
    + destruct (cv_user w); cbn [andb cv_sv]; intros H.
      * eapply sv_edit_holds; [exact H|cbn; rewrite Z.eqb_refl; reflexivity..].
      * rewrite (Hi x eq_refl eq_refl) in H. exact H.
    + rewrite andb_false_r. cbn [cv_sv]. intros H. rewrite (sv_other n m) in H |- * by (auto; repeat (constructor; [cbn; auto|]); constructor). exact H.
  - destruct (m =? n); intros H; exact H.
Qed.

Lemma user_none_instr s p : user_none s -> 0 <= p < 128 -> instrument r s p = rom_preset p.
Proof. intros H Hp. unfold instrument. rewrite (H p Hp). reflexivity. Qed.

Lemma cv_next (Hr : rom_ok r) n w s c s' so po o tr m : 0 <= n < 6 -> dev_inv s -> MidiSpec.dcall_ok c -> cv_holds n w s tr ->
  does r m s s' so po o -> so = synth_calls r s c -> frame r s c s' -> cv_holds n (cv_step n w c) s' (tr ++ o).
Proof.
  intros Hn Hi Hc (H1 & H2 & H3 & H4 & H5) (_ & D & _) -> F.
  assert (Hs := proj1 Hi).
  destruct F as (F1 & _ & _ & _ & _ & F & FU). assert (Hl : length (v_fm s) = 6%nat) by apply Hs.
  assert (E : fm_of s' n = fm_after r s c n (fm_of s n)).
  { assert (G := F n _ (fm_get s n Hl Hn)). rewrite (fm_get s' n) in G by (auto; congruence). congruence. }
  unfold cv_holds. rewrite E.
  assert (S : sv_holds n (cv_sv (cv_step n w c)) (v_synth s') (tr ++ o)).
  { apply (sv_calls n s); auto.
    - intros p -> HU. apply user_none_instr; [apply H5, HU|apply Hc].
    - apply sv_fm. rewrite filter_app.
      apply (sv_run n _ (v_synth s)); [apply Hs|apply (synth_calls_ok r Hr s c Hs Hc)|exact Hn|exact D|apply sv_fm in H4; exact H4]. }
  assert (U : cv_user (cv_step n w c) = false -> user_none s').
  { assert (X : forall k, 0 <= k < 128 -> exists x, zget (v_user s) k = Some x).
    { intros k Hk. apply zget_in_range. destruct Hs as (_ & _ & _ & L & _). rewrite L. exact Hk. }
    assert (A : c = DFmReset -> user_none s').
    { intros -> k Hk. destruct (X k Hk) as [x Ex]. rewrite (FU k x Ex). reflexivity. }
    assert (B : cv_user w = false -> unstored c -> user_none s').
    { intros HU [U1 U2] k Hk. rewrite (FU k None (H5 HU k Hk)). f_equal. apply user_none_after; assumption. }
    intros HU.
    destruct c as [v q x ce vel|v q x|v q x|v q x|v q|v q x|v q x ce|q b|op|e|prog q|prog|q prog|prog|mc q|data| | | | | |k mc key v|mc b];
      cbn [cv_step] in HU; try destruct v; cbn in HU; try discriminate; try (apply A; reflexivity);
      apply B; try (split; discriminate); try exact HU; try (destruct (q =? n); cbn in HU; try destruct (playable x); exact HU). }
  repeat (split; [|exact (conj S U)] || split);
  destruct c as [v q x ce vel|v q x|v q x|v q x|v q|v q x|v q x ce|q b|op|e|prog q|prog|q prog|prog|mc q|data| | | | | |k mc key v|mc b];
    cbn [fm_after cv_step]; try destruct v; cbn [cv_vol cv_vel cv_perc]; try assumption; try reflexivity;
    try (destruct (q =? n); cbn; try destruct (playable x); cbn; assumption || reflexivity).
Qed.

Theorem played_view (Hr : rom_ok r) mem (Hm : mem_ok mem) n cs s tr : 0 <= n < 6 ->
  played r mem cs s tr -> Forall MidiSpec.dcall_ok cs -> cv_holds n (fold_left (cv_step n) (skipn 4 cs) cv0) s tr.
Proof.
  intros Hn P Hc.
  apply (played_rec r Hr mem Hm (fun cs s tr => cv_holds n (fold_left (cv_step n) cs cv0) s tr)); [..|exact P|exact Hc].
  - intros s0 o Hi _ R _ _ _ _ Hf Hu.
    unfold cv_holds. assert (Hl : length (v_fm s0) = 6%nat) by apply Hi.
    assert (E := Hf n Hn). rewrite (fm_get s0 n Hl Hn) in E. injection E as E. rewrite E. cbn [fold_left cv0 cv_vol cv_vel cv_perc cv_sv cv_user f_vol f_vel f_perc].
    repeat (split; [reflexivity|]). split; [|intros _; exact Hu]. apply sv_fm.
    assert (B : sv_holds n (mkSv None (vol synth0 n) (c_st (chn synth0 n)) (rom_preset 0) None true false) synth0 []).
    { split; [reflexivity|]. split; [reflexivity|]. split; [discriminate|]. intros _. split; reflexivity. }
    assert (Q : Forall sop_ok [SInit (preset0 r)]) by (constructor; [exact (AppClaimsProofs.preset0_ok r Hr)|constructor]).
    exact (sv_run n [SInit (preset0 r)] synth0 _ _ _ [] synth0_ok Q Hn R B).
  - intros cs0 s0 tr0 c s1 o Hi G IH Hc0 _ _ D F _ _.
    rewrite fold_left_app. cbn [fold_left]. eapply cv_next; [exact Hr|exact Hn|exact Hi|exact Hc0|exact IH|exact D|reflexivity|exact F].
  - intros cs0 s0 tr0 x o Hi G (V1 & V2 & V3 & V4 & V5) (_ & D & _) _.
    unfold cv_holds. repeat (split; [assumption|]). split; [|exact V5]. apply sv_fm. rewrite filter_app.
    apply (sv_run n [] (v_synth s0)); [apply Hi|constructor|exact Hn|exact D|apply sv_fm in V4; exact V4].
  - intros cs0 s0 tr0 b o Hi G (V1 & V2 & V3 & V4 & V5) (_ & D & _) _.
    unfold cv_holds. repeat (split; [assumption|]). split; [|exact V5]. apply sv_fm. rewrite filter_app.
    apply (sv_run n [SCallback b] (v_synth s0)); [apply Hi|repeat constructor|exact Hn|exact D|apply sv_fm in V4; exact V4].
Qed.
End Calls.
