(** FM keys follow the notes. *)
From Verif Require MidiClaimsProofs.
From Verif Require Import Base BaseLemmas PitchModel SynthModel SynthSpec SynthViewProofs MidiModel MidiSpec MidiOkProofs MidiEqProofs MidiEffectProofs MidiCallProofs.
From Verif Require Import MidiProofs MidiDevProofs MidiInvProofs.
From Verif Require Import PsgModel DevModel DevSpec DevProofs AppModel AppSpec AppProofs AppTraceProofs AppClaimsProofs AppViewProofs.

Definition cv_key (w : cview) : option bool := v_key (cv_sv w).

Lemma because_some P m : because P (Some m) -> P m.
Proof. intros (x & E & H). injection E as ->. exact H. Qed.

Section Key.
Context (r : rom) (n : Z) (Hn : 0 <= n < 6).
Notation view := (fold_left (cv_step r n)).

(** Calls for other voices. *)
Lemma foreign c v k w : call_voice c = Some (v, k) -> v <> VFm \/ k <> n -> cv_step r n w c = w.
Proof.
  intros E N. assert (W : mkCv (cv_vol w) (cv_vel w) (cv_perc w) (cv_sv w) (cv_user w) = w) by (destruct w; reflexivity).
  destruct c as [x q p ce vel|x q p|x q p|x q p|x q|x q p|x q p ce|q b|o|e|prog q|prog|q prog|prog|mc q|data| | | | | |y mc key x|mc b]; try discriminate E; injection E as -> ->;
    (destruct v; [destruct N as [N|N]; [contradiction|]|..]; cbn [cv_step cv_sops fold_left]; try exact W); cbn [sv_step];
    apply Z.eqb_neq in N; rewrite ?N, ?andb_false_r; cbn [andb]; exact W || reflexivity.
Qed.
(** Moves of another device channel at most set the percussion flag. *)
Lemma others_move op j e cs e' w : 0 <= j < 13 -> j <> n -> shape_ok j e -> no_dac e -> datom op j e cs e' ->
  view cs w = w \/ exists b, In (DPerc n b) cs /\ view cs w = mkCv (cv_vol w) (cv_vel w) b (cv_sv w) (cv_user w).
Proof.
  intros Hj N (S1 & S2 & S3) D A.
  assert (V : d_ops e <> VFm \/ d_num e <> n).
  { destruct (Z_lt_le_dec j 6) as [L|L]; [right; destruct (S1 L); lia|]. left. destruct (Z_lt_le_dec j 10) as [L'|L'].
    - destruct (S2 ltac:(lia)); congruence.
    - destruct (S3 ltac:(lia)); congruence. }
  assert (P : forall k b, view [DPerc k b] w = w \/ exists b', In (DPerc n b') [DPerc k b] /\ view [DPerc k b] w = mkCv (cv_vol w) (cv_vel w) b' (cv_sv w) (cv_user w)).
  { intros k b. cbn. destruct (Z.eqb_spec k n) as [->|]; [right; exists b; split; [left|]; reflexivity|left; reflexivity]. }
  assert (F : forall c, call_voice c = Some (d_ops e, d_num e) -> view [c] w = w \/ exists b', In (DPerc n b') [c] /\ view [c] w = mkCv (cv_vol w) (cv_vel w) b' (cv_sv w) (cv_user w)).
  { intros c Hc. left. exact (foreign c _ _ w Hc V). }
  destruct A; try first [apply P|apply F; reflexivity|left; exact (eq_refl w)].
  unfold press_calls. rewrite fold_left_app. assert (Q : view (if back c d then [DProgram (d_ops d) (d_num d) x] else []) w = w).
  { destruct (back c d); [exact (foreign (DProgram (d_ops d) (d_num d) x) (d_ops d) (d_num d) w eq_refl V)|reflexivity]. }
  rewrite Q. destruct (P (d_num d) (c =? 9)) as [E|(b & I1 & E)]; [left; exact E|right; exists b].
  split; [apply in_or_app; right; exact I1|exact E].
Qed.

(** Calls that neither address a voice nor set a percussion flag leave the keys alone. *)
Lemma plain_key op c w : menu op c -> plain_call c -> cv_key (cv_step r n w c) = cv_key w \/ cv_key (cv_step r n w c) = Some false.
Proof.
  intros M [P1 P2]. unfold cv_key.
  destruct c as [v q x ce vel|v q x|v q x|v q x|v q|v q x|v q x ce|q b|o|e|prog q|prog|q prog|prog|mc q|data| | | | | |k mc key v|mc b];
    try discriminate P1; try (left; reflexivity); try (right; reflexivity).
  - exfalso. eapply P2; reflexivity.
  - left. assert (X : match o with SNoteOn _ | SNoteOff _ | SInit _ => False | _ => True end).
    { destruct op as [? ? ?|? ?|? k ?|? ?|? ?|data| | |cb]; cbn [menu voice_call] in M; try contradiction.
      - destruct M as [M|[(t & a & b & d' & M)|[(a & b & M)|[(_ & q & z & M)|[(x & M & So & _)|[(_ & b & M)|(_ & b & M)]]]]]]; try contradiction; try discriminate M;
          injection M as ->; try exact I. destruct x; try exact I; contradiction.
      - destruct M as [M|(t & a & b & d' & M)]; [contradiction|discriminate].
      - destruct M as [[_ M]|[(_ & l & M)|[(_ & l & M)|[(_ & p & g & d & M)|[(_ & q & z & M)|[(_ & q & M)|[(_ & q & M)|(_ & a & q & M)]]]]]]]; try contradiction; try discriminate M.
        injection M as ->. exact I.
      - destruct M as [M|[M|[M|M]]]; try contradiction; discriminate M. }
    destruct o; try contradiction; cbn; try reflexivity; destruct (_ =? _); reflexivity.
Qed.

(** The invariant. *)
Definition kinv (chan : bool) (l : list dev) (w : cview) : Prop :=
  length l = 13%nat /\
  (forall j d, zget l j = Some d -> shape_ok j d /\ no_dac d /\ (chan = true -> d_on d = true -> is_chan (d_midi d))) /\
  (forall d, zget l n = Some d -> cv_key w = Some true -> d_on d = true).

Definition kind_msg (chan : bool) (m : mop) : Prop :=
  ~ is_cc 121 m /\ ~ is_cc 78 m /\ (if chan then ~ remapping m else ~ gm_reset_msg m).

Lemma kinv_atom op chan l w j d cs d' : kind_msg chan op -> mop_ok op -> op <> MReset -> kinv chan l w -> zget l j = Some d -> datom (Some op) j d cs d' ->
  kinv chan (zset l j d') (view cs w).
Proof.
  intros (K1 & K2 & K3) Ho K4 (L & S & H) Hj A. assert (R := zget_Some _ _ _ Hj). rewrite L in R. change (Z.of_nat 13) with 13 in R.
  destruct (S j d Hj) as (S1 & S2 & S3).
  split; [rewrite zset_length; exact L|]. split.
  - intros k x Hx. destruct (Z.eq_dec k j) as [->|Nk].
    + rewrite zget_zset_same in Hx by (rewrite L; exact R). injection Hx as <-.
      split; [exact (atom_shape _ _ _ _ _ R A S1)|]. split.
      { apply (atom_no_dac _ _ _ _ _ (fun B => K2 (because_some _ _ B)) A S2). }
      intros -> Hon. destruct A; cbn in Hon |- *; try (apply S3; [reflexivity|exact Hon]); try discriminate.
      * injection H0 as ->. unfold pressed. destruct (back c d); apply Ho.
      * destruct H0 as [[H0 _]|Hm]; [congruence|apply because_some in Hm; contradiction].
    + rewrite zget_zset_other in Hx by auto. exact (S k x Hx).
  - intros x Hx Hkey. destruct (Z.eq_dec n j) as [<-|Nj].
    + rewrite zget_zset_same in Hx by (rewrite L; exact R). injection Hx as <-. specialize (H d Hj).
      destruct S1 as [S1 _]. destruct (S1 ltac:(lia)) as [Nn Oo].
      assert (Of : d_ops d = VFm) by (destruct Oo as [Oo|[_ Oo]]; [exact Oo|contradiction]).
      assert (KK : forall p ce, cv_key (cv_step r n w (DPitch VFm n p ce)) = Some true -> cv_key w = Some true).
      { intros p ce. unfold cv_key. cbn. rewrite Z.eqb_refl. auto. }
      destruct A; rewrite ?Of, ?Nn in Hkey; cbn [d_on d_set_vol d_set_pan d_set_prog d_set_bend d_set_glide d_set_cents d_set_pitch d_set_on d_set_midi off_dev d_set_ops fold_left] in *;
        try assumption; try reflexivity; try (apply H; exact Hkey).
      * apply H. unfold cv_key in *. cbn in Hkey. rewrite Z.eqb_refl in Hkey. exact Hkey.
      * apply H. unfold cv_key in *. cbn in Hkey. rewrite Z.eqb_refl in Hkey. exact Hkey.
      * apply H. unfold cv_key in *. cbn in Hkey. rewrite Z.eqb_refl, andb_true_r in Hkey. destruct (cv_user w); exact Hkey.
      * apply H, (KK _ _ Hkey).
      * apply H, (KK _ _ Hkey).
      * exfalso. unfold cv_key in *. cbn in Hkey. rewrite Z.eqb_refl in Hkey. discriminate.
      * exfalso. unfold cv_key in *. cbn in Hkey. rewrite Z.eqb_refl in Hkey. discriminate.
      * assert (Kw : cv_key w = Some true).
        { unfold cv_key in *. cbn in Hkey. destruct (_ =? n) in Hkey; exact Hkey. }
        specialize (H Kw). exfalso. destruct H0 as [[=]|[Hm|[E|[Hm [Hf|Hf]]]]]; try apply because_some in Hm; try contradiction; try congruence.
        destruct chan; [|contradiction]. apply Hf. apply S3; [reflexivity|exact H].
    + rewrite zget_zset_other in Hx by (intros E; apply Nj; auto). apply (H x Hx).
      destruct (others_move (Some op) j d cs d' w R ltac:(auto) S1 S2 A) as [E|(b & _ & E)]; rewrite E in Hkey; exact Hkey.
Qed.

Lemma kinv_plain chan op l w c : menu op c -> plain_call c -> kinv chan l w -> kinv chan l (cv_step r n w c).
Proof.
  intros M P (L & S & H). split; [exact L|]. split; [exact S|]. intros d Hd Hk.
  destruct (plain_key op c w M P) as [E|E]; rewrite E in Hk; [exact (H d Hd Hk)|discriminate].
Qed.

Lemma reset_dec op : op = MReset \/ op <> MReset.
Proof. destruct op; auto; right; discriminate. Qed.

Lemma no_cc_reset : ~ because (is_cc 78) (Some MReset).
Proof. intros B. apply because_some in B as (c & v & [=]). Qed.

(** A System Reset releases every key, and presses none. *)
Lemma reset_keys l cs l' w : moves (Some MReset) 0 l cs l' -> Forall (menu MReset) cs -> length l = 13%nat ->
  (forall j d, zget l j = Some d -> shape_ok j d /\ no_dac d) -> cv_key w <> Some true -> cv_key (view cs w) <> Some true.
Proof.
  intros M Q L S K.
  refine (proj2 (proj2 (moves_inv (cv_step r n) (Some MReset) (menu MReset)
     (fun l w => length l = 13%nat /\ (forall j d, zget l j = Some d -> shape_ok j d /\ no_dac d) /\ cv_key w <> Some true) _ _ l cs l' M Q w (conj L (conj S K))))).
  - clear -Hn. intros l w j d cs d' (L & S & K) Hj A _. assert (R := zget_Some _ _ _ Hj). rewrite L in R. change (Z.of_nat 13) with 13 in R.
    destruct (S j d Hj) as (S1 & S2). split; [rewrite zset_length; exact L|]. split.
    + intros k x Hx. destruct (Z.eq_dec k j) as [->|Nk].
      * rewrite zget_zset_same in Hx by (rewrite L; exact R). injection Hx as <-.
        split; [exact (atom_shape _ _ _ _ _ R A S1)|]. apply (atom_no_dac _ _ _ _ _ no_cc_reset A S2).
      * rewrite zget_zset_other in Hx by auto. exact (S k x Hx).
    + destruct (Z.eq_dec n j) as [<-|Nj].
      * destruct S1 as [S1 _]. destruct (S1 ltac:(lia)) as [Nn Oo].
        assert (Of : d_ops d = VFm) by (destruct Oo as [Oo|[_ Oo]]; [exact Oo|contradiction]).
        assert (O : ~ because off_msg (Some MReset)) by (intros B; apply because_some in B as [(c & p & [=])|(c & p & [=])]).
        destruct A; rewrite ?Of, ?Nn; cbn [fold_left]; try exact K; try contradiction; try discriminate;
          try (unfold cv_key; cbn; rewrite ?Z.eqb_refl, ?andb_true_r; try destruct (cv_user w); exact K || discriminate).
        -- destruct H as (k & [=] & _).
        -- unfold cv_key; cbn. destruct (_ =? n); exact K.
      * destruct (others_move (Some MReset) j d cs d' w R ltac:(auto) S1 S2 A) as [E|(b & _ & E)]; rewrite E; exact K.
  - clear -Hn. intros l w c P Q (L & S & K). split; [exact L|]. split; [exact S|].
    destruct (plain_key MReset c w Q P) as [E|E]; rewrite E; [exact K|discriminate].
Qed.

Lemma kinv_step chan op s s' o w : kind_msg chan op -> mop_ok op -> midi_ok s -> steps s op s' o -> kinv chan (md_dev s) w ->
  kinv chan (md_dev s') (view o w).
Proof.
  intros K Ho Hs E H. assert (Q := step_menu _ _ _ _ E). destruct (reset_dec op) as [->|N].
  - destruct (step_ok _ _ _ _ Hs Ho E) as [Hs' _]. destruct H as (L & S & H).
    destruct (reset_moves s s' o Hs E) as (o' & -> & M). do 3 apply Forall_inv_tail in Q.
    split; [apply Hs'|]. split.
    + intros j d Hd. split; [apply Hs', Hd|].
      assert (X : d_on d = false /\ no_dac d).
      { destruct (reset_devs s s' _ Hs E) as (_ & _ & D). destruct (D j d Hd) as (d0 & _ & ->).
        destruct (reset_dev_facts j d0) as (A & B & _). auto. }
      destruct X as [X1 X2]. split; [exact X2|]. intros _ Hon. congruence.
    + intros d Hd Hk. exfalso. cbn [fold_left] in Hk. revert Hk. eapply reset_keys; [exact M|exact Q|exact L| |].
      * intros j x Hx. destruct (S j x Hx) as (A & B & _). auto.
      * discriminate.
  - refine (moves_inv (cv_step r n) (Some op) (menu op) (kinv chan) _ _ _ _ _ (step_moves op s s' o Ho Hs E) Q w H).
    + intros l t j d cs d' Hi Hj A _. eapply kinv_atom; eassumption.
    + intros l t c P M Hi. eapply kinv_plain; eassumption.
Qed.
End Key.

Lemma n_cases n : 0 <= n < 6 -> n = 0 \/ n = 1 \/ n = 2 \/ n = 3 \/ n = 4 \/ n = 5.
Proof. lia. Qed.

(** Calls without raw register writes. *)
Definition not_raw (c : dcall) : Prop := forall p g d, c <> DSynth (SDirect p g d).
Lemma sv_step_raw n v op : (forall p g d, op <> SDirect p g d) -> v_raw (sv_step n v op) = v_raw v.
Proof. intros H. destruct op; cbn; try reflexivity; try (destruct (_ =? n); reflexivity). exfalso; eapply H; reflexivity. Qed.
Lemma cv_raw_free r n w c : not_raw c -> v_raw (cv_sv w) = false -> v_raw (cv_sv (cv_step r n w c)) = false.
Proof.
  intros H R.
  destruct c as [v q x ce vel|v q x|v q x|v q x|v q|v q x|v q x ce|q b|o|e|prog q|prog|q prog|prog|mc q|data| | | | | |k mc key v|mc b];
    cbn [cv_step cv_sops]; try destruct v; try exact R; cbn [cv_sv fold_left];
    try (destruct (q =? n); cbn [cv_sv andb fold_left]); rewrite ?andb_false_r, ?andb_true_r; try exact R;
    try (rewrite sv_step_raw by discriminate; exact R).
  - destruct (playable x); [|exact R]. cbn [cv_sv]. destruct (cv_perc w); cbn [fold_left Datatypes.app];
      repeat (rewrite sv_step_raw; [|discriminate]); exact R.
  - destruct (cv_user w); cbn [sv_edit v_raw]; rewrite sv_step_raw by discriminate; exact R.
  - rewrite sv_step_raw; [exact R|]. intros p g d ->. eapply H; reflexivity.
Qed.
Lemma cv_raw_free_all r n cs : forall w, Forall not_raw cs -> v_raw (cv_sv w) = false -> v_raw (cv_sv (fold_left (cv_step r n) cs w)) = false.
Proof.
  induction cs as [|c t IH]; intros w H R; [exact R|]. apply Forall_cons_iff in H as [H1 H2]. apply IH; [exact H2|]. apply cv_raw_free; assumption.
Qed.
Lemma sv_key_some n v op : v_key v <> None -> v_key (sv_step n v op) <> None.
Proof. intros H. destruct op; cbn; try exact H; try discriminate; try (destruct (_ =? n); cbn; try exact H; discriminate). Qed.
Lemma sv_key_some_all n ops : forall v, v_key v <> None -> v_key (fold_left (sv_step n) ops v) <> None.
Proof. induction ops as [|op t IH]; intros v H; [exact H|]. apply IH, sv_key_some, H. Qed.
Lemma cv_key_some r n cs : forall w, cv_key w <> None -> cv_key (fold_left (cv_step r n) cs w) <> None.
Proof.
  induction cs as [|c t IH]; intros w H; [exact H|]. cbn [fold_left]. apply IH. unfold cv_key in *.
  assert (X := sv_key_some_all n (cv_sops r w c) (cv_sv w) H).
  destruct c as [v q x ce vel|v q x|v q x|v q x|v q|v q x|v q x ce|q b|o|e|prog q|prog|q prog|prog|mc q|data| | | | | |k mc key v|mc b];
    cbn [cv_step]; try destruct v; cbn [cv_sv]; try exact X; try (destruct (q =? n); cbn [cv_sv andb]; exact X || exact H).
  - destruct ((q =? n) && playable x); [exact X|exact H].
  - destruct (_ && _); exact X.
Qed.

Lemma history_not_raw ops s cs : boots_to (MCallback true :: map message ops) s cs -> without raw_write ops -> Forall not_raw (skipn 4 cs).
Proof.
  intros B W. apply Forall_forall. intros c Hc p g d ->.
  destruct (boots_menu _ _ _ B _ Hc) as [[V|V]|(m & [<-|Hm] & M)]; [exact V|discriminate V|destruct M|].
  apply in_message in Hm as [Hm| ->]; [|exact M].
  refine (W m Hm _). apply (menu_direct (mkRom false [] [] [] []) (devst0 []) m _ p g d M). left; reflexivity.
Qed.

(** Calls after the first four, step by step. *)
Lemma boots_rest ops s cs : boots_to ops s cs -> exists t, cs = first_calls ++ t.
Proof. intros B. destruct (boots_run _ _ _ B) as (_ & o & _ & ->). rewrite boot_first. eexists. rewrite <- app_assoc. reflexivity. Qed.

Theorem keys_invariant r n (chan : bool) ops s cs : 0 <= n < 6 -> boots_to ops s cs -> Forall (kind_msg chan) ops ->
  kinv n chan (md_dev s) (fold_left (cv_step r n) (skipn 4 cs) (cv0 r)).
Proof.
  intros Hn B. revert B.
  apply (boots_ind (fun ops s cs => Forall (kind_msg chan) ops -> kinv n chan (md_dev s) (fold_left (cv_step r n) (skipn 4 cs) (cv0 r)))).
  - intros _. rewrite boot_first. change (skipn 4 (first_calls ++ boot_rest)) with boot_rest.
    split; [reflexivity|]. split.
    + intros j d Hd. split; [apply booted_ok, Hd|].
      assert (X : Forall (fun d => no_dac d /\ d_on d = false) (md_dev booted)) by (repeat (constructor; [split; [discriminate|reflexivity]|]); constructor).
      destruct (Forall_zget _ _ _ _ X Hd) as [X1 X2]. split; [exact X1|]. congruence.
    + intros d _ Hk. exfalso. destruct (n_cases n Hn) as [->|[->|[->|[->|[->| ->]]]]]; discriminate Hk.
  - intros ops0 op s0 cs0 s' o B0 Hs IH Ho E K. apply Forall_app in K as [K1 K2]. apply Forall_inv in K2.
    destruct (boots_rest _ _ _ B0) as [t ->]. specialize (IH K1). cbn [skipn Datatypes.app first_calls] in IH |- *. rewrite fold_left_app.
    eapply kinv_step; eassumption.
Qed.

Theorem c31_keys r hw mem ops s tr n : history r hw mem ops s tr -> 0 <= n < 6 ->
  without raw_write ops -> without (is_cc 121) ops -> without (is_cc 78) ops -> without remapping ops \/ without gm_reset_msg ops ->
  exists b d, key_state tr n = Some b /\ dev_at (a_midi s) n d /\ (b = true -> d_on d = true).
Proof.
  intros H Hn W1 W2 W3 W4. assert (H' := H). destruct H' as (Hr & Hm & _). destruct (history_played _ _ _ _ _ _ H) as (Hi & cs & B & P).
  assert (Hc := boots_calls_ok _ _ _ B).
  destruct (played_view r Hr mem Hm n cs _ _ Hn P Hc) as (_ & _ & _ & (_ & _ & _ & V) & _).
  assert (R := cv_raw_free_all r n _ (cv0 r) (history_not_raw _ _ _ B W1) eq_refl). destruct (V R) as [K _].
  assert (Hs := boots_ok _ _ _ B).
  destruct (zget_in_range (md_dev (a_midi s)) n) as [d Hd]; [destruct Hs as [-> _]; lia|].
  assert (X : exists chan, Forall (kind_msg chan) (MCallback true :: map message ops)).
  { assert (Y : forall chan : bool, (if chan then without remapping ops else without gm_reset_msg ops) -> Forall (kind_msg chan) (MCallback true :: map message ops)).
    { intros chan Y. constructor.
      - split; [intros (c & v & [=])|]. split; [intros (c & v & [=])|]. destruct chan; [|intros (t & [=])].
        intros [(c & v & [=])|[(c & v & [=])|[(l & [=])|(l & [=])]]].
      - apply Forall_forall. intros m Hin. apply in_message in Hin as [Hin| ->].
        + split; [exact (W2 m Hin)|]. split; [exact (W3 m Hin)|]. destruct chan; exact (Y m Hin).
        + split; [intros (c & v & [=])|]. split; [intros (c & v & [=])|]. destruct chan; [|intros (t & [=])].
          intros [(c & v & [=])|[(c & v & [=])|[(l & [=])|(l & [=])]]]. }
    destruct W4 as [W4|W4]; [exists true|exists false]; apply Y; exact W4. }
  destruct X as [chan X]. destruct (keys_invariant r n chan _ _ _ Hn B X) as (_ & _ & KI).
  unfold cv_key in KI. rewrite <- K in KI.
  assert (S := cv_key_some r n (skipn 4 cs) (cv0 r) ltac:(discriminate)). unfold cv_key in S. rewrite <- K in S.
  destruct (key_state tr n) as [b|]; [|contradiction]. exists b, d. split; [reflexivity|]. split; [exact Hd|].
  intros ->. apply KI; [exact Hd|reflexivity].
Qed.

(** Every key released: every FM channel keyed off. *)
Theorem c31_silent r hw mem ops s tr n : history r hw mem ops s tr -> 0 <= n < 6 ->
  without raw_write ops -> without (is_cc 78) ops -> without (is_cc 65) ops -> without remapping ops ->
  held (map message ops) = [] -> key_state tr n = Some false.
Proof.
  intros H Hn W1 W2 W3 W4 Hh.
  destruct (c31_keys r hw mem ops s tr n H Hn W1) as ([|] & d & K & Hd & Hon).
  - intros m Hm Hc. apply (W4 m Hm). right; left; exact Hc.
  - exact W2.
  - left; exact W4.
  - exfalso. specialize (Hon eq_refl). destruct (history_played _ _ _ _ _ _ H) as (_ & cs & B & _).
    rewrite (MidiClaimsProofs.c42_released (MCallback true :: map message ops) (a_midi s) cs) with (i := n) (d := d) in Hon; try assumption.
    + discriminate Hon.
    + constructor.
      * split; [intros (c & v & [=])|intros [(c & v & [=])|[(c & v & [=])|[(l & [=])|(l & [=])]]]].
      * apply Forall_forall. intros m Hin. apply in_message in Hin as [Hin| ->]; [split; [exact (W3 m Hin)|exact (W4 m Hin)]|].
        split; [intros (c & v & [=])|intros [(c & v & [=])|[(c & v & [=])|[(l & [=])|(l & [=])]]]].
  - exact K.
Qed.
