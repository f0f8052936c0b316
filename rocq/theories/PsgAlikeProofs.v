(** The PSG layer does not depend on what the upload buffer held before. *)
From Verif Require Import Base BaseLemmas PsgModel PsgSpec PsgProofs PsgRunProofs.

Section Alike.
Context (pal : bool) (envs : list (list Z)) (Henvs : envs_ok envs).

(** Buffers that agree as far as any pointer reaches. *)
Definition upto (ue : Z) (u u' : list Z) : Prop := forall i, 0 <= i <= ue -> zget u i = zget u' i.

Section Chan.
Context (u u' : list Z) (up : bool) (ue : Z) (Hu : ue_ok u up ue) (Hu' : ue_ok u' up ue) (A : upto ue u u').

Lemma peek_alike p : pok envs ue p -> peek envs u p = peek envs u' p.
Proof. destruct p as [|i|k i]; cbn; intros H; [reflexivity|apply A, H|reflexivity]. Qed.
Lemma walk1_alike c : ptrs_ok envs ue c -> walk1 envs u c = walk1 envs u' c.
Proof. intros [H _]. unfold walk1. rewrite (peek_alike _ H). reflexivity. Qed.
Lemma walk2_alike c : ptrs_ok envs ue c -> walk2 envs u c = walk2 envs u' c.
Proof. intros [H _]. unfold walk2. rewrite (peek_alike _ H). reflexivity. Qed.
Lemma walk_alike c : ptrs_ok envs ue c -> walk envs u c = walk envs u' c.
Proof.
  intros H. unfold walk. rewrite <- (walk1_alike c H). apply walk2_alike. eapply walk1_ptrs; eassumption.
Qed.
Lemma settle_alike c : ptrs_ok envs ue c -> settle pal envs u c = settle pal envs u' c.
Proof.
  intros H. unfold settle. cbv zeta. rewrite <- (walk_alike c H).
  assert (W := walk_ptrs envs u up ue Hu c H). rewrite <- (peek_alike _ (proj1 W)).
  destruct (peek envs u (g_step (walk envs u c))) as [b|]; [|reflexivity]. destruct (b =? EEF_END); [|reflexivity].
  destruct (is_null (g_loop (walk envs u c))) eqn:E; [reflexivity|]. rewrite <- (peek_alike _ (proj2 W E)). reflexivity.
Qed.
Lemma advance_alike c : ptrs_ok envs ue c -> advance envs u c = advance envs u' c.
Proof. intros [H _]. unfold advance. rewrite (peek_alike _ H). reflexivity. Qed.
Lemma cexec_alike k c : cop_ok k -> chok envs ue c -> cexec pal envs u up k c = cexec pal envs u' up k c.
Proof.
  intros Hk Hc. assert (Hp : ptrs_ok envs ue c) by (split; apply Hc).
  destruct k as [p ce v| |v|p| |p ce]; cbn [cexec]; cbv zeta; try reflexivity.
  - apply settle_alike. eapply start_ptrs; eassumption.
  - rewrite (peek_alike _ (proj1 Hp)). reflexivity.
  - rewrite <- (advance_alike c Hp). destruct (g_on c); [|reflexivity]. apply settle_alike. eapply advance_ptrs; eassumption.
  - rewrite (peek_alike _ (proj1 Hp)). reflexivity.
Qed.
End Chan.

Definition alike (ue : Z) (x y : psg) : Prop :=
  psg_inv envs ue x /\ psg_inv envs ue y /\ ps_chans x = ps_chans y /\ ps_userp x = ps_userp y /\ upto ue (ps_user x) (ps_user y).

(** Same outcome and events, and states that are alike again. *)
Definition same_way (m : M psg unit) (x y : psg) : Prop :=
  exists ue x' y' o, m x = Done tt x' o /\ m y = Done tt y' o /\ alike ue x' y'.

Lemma on_chan_alike ue x y c k (m : list Z -> bool -> M psgchan unit) : alike ue x y -> is_psg c -> cop_ok k ->
  (forall u up, m u up = cfun pal envs u up k) ->
  exists x' y' o, on_chan c m x = Done tt x' o /\ on_chan c m y = Done tt y' o /\ alike ue x' y'.
Proof.
  intros (Ix & Iy & Ec & Ep & A) Hc Hk Hm.
  destruct (on_chan_exec pal envs Henvs ue x c k m Ix Hc Hk Hm) as (x' & o & Ex & Ax).
  destruct (on_chan_exec pal envs Henvs ue y c k m Iy Hc Hk Hm) as (y' & o' & Ey & Ay).
  assert (Jx : psg_inv envs ue x').
  { eapply agrees_inv; [exact Henvs|exact Ix|exact Ax|]. intros d k' _ H. cbv beta in H. destruct (d =? c); [injection H as <-; exact Hk|discriminate]. }
  assert (Jy : psg_inv envs ue y').
  { eapply agrees_inv; [exact Henvs|exact Iy|exact Ay|]. intros d k' _ H. cbv beta in H. destruct (d =? c); [injection H as <-; exact Hk|discriminate]. }
  assert (F : o = o' /\ ps_chans x' = ps_chans y' /\ ps_userp x' = ps_userp y' /\ ps_user x' = ps_user x /\ ps_user y' = ps_user y).
  { destruct Ix as [[Lx Ux] Cx]. destruct Iy as [[Ly Uy] Cy]. unfold is_psg in Hc.
    destruct (zget_in_range (ps_chans x) c) as [ch Hch]; [rewrite Lx; lia|].
    unfold on_chan in Ex, Ey. rewrite <- Ec, Hch in Ey. rewrite Hch in Ex. rewrite Hm in Ex, Ey.
    destruct (Cx c ch Hch) as [_ Kx].
    rewrite (cexec_eq pal envs Henvs _ _ ue Ux k ch Hk Kx) in Ex.
    assert (Kc := cexec_alike (ps_user x) (ps_user y) (ps_userp x) ue Ux ltac:(rewrite Ep; exact Uy) A k ch Hk Kx).
    rewrite (cexec_eq pal envs Henvs _ _ ue Uy k ch Hk Kx) in Ey. rewrite <- Ep, <- Kc in Ey.
    injection Ex as <- <-. injection Ey as <- <-. cbn. auto. }
  destruct F as (<- & F1 & F2 & F3 & F4). exists x', y', o. split; [exact Ex|]. split; [exact Ey|].
  split; [exact Jx|]. split; [exact Jy|]. split; [exact F1|]. split; [exact F2|]. rewrite F3, F4. exact A.
Qed.

Lemma tick_alike ue l : (forall c, In c l -> is_psg c) -> forall x y, alike ue x y ->
  exists x' y' o, forM l (fun c => on_chan c (fun u _ => chan_tick pal envs u)) x = Done tt x' o /\
    forM l (fun c => on_chan c (fun u _ => chan_tick pal envs u)) y = Done tt y' o /\ alike ue x' y'.
Proof.
  induction l as [|c t IH]; intros Hl x y H.
  - exists x, y, []. auto.
  - destruct (on_chan_alike ue x y c CTick (fun u _ => chan_tick pal envs u) H (Hl c (or_introl eq_refl)) I) as (x1 & y1 & o1 & Ex & Ey & H1); [reflexivity|].
    destruct (IH (fun d Hd => Hl d (or_intror Hd)) x1 y1 H1) as (x2 & y2 & o2 & Ex2 & Ey2 & H2).
    exists x2, y2, (o1 ++ o2). cbn [forM]. unfold bind. rewrite Ex, Ex2, Ey, Ey2. auto.
Qed.

Lemma load_alike ue x y e : alike ue x y -> loadable e -> same_way (psg_step pal envs (PLoad e)) x y.
Proof.
  intros (Ix & Iy & Ec & Ep & A) He. assert (He' := He). destruct He' as [_ (n & Hn & Hne)].
  destruct (first_nat e n Hne) as (m & Hm & Em & Fm).
  assert (Lx : length (ps_user x) = 256%nat) by apply Ix. assert (Ly : length (ps_user y) = 256%nat) by apply Iy.
  destruct (load_loop_spec m e 0 (ps_user x) Em Fm) as (v & Ex & L1 & G1 & F1 & C1); try lia; auto.
  destruct (load_loop_spec m e 0 (ps_user y) Em Fm) as (w & Ey & L2 & G2 & F2 & C2); try lia; auto.
  assert (J : forall z v', psg_inv envs ue z -> load_loop e 0 (ps_user z) = Some v' -> length v' = 256%nat ->
     zget v' (0 + Z.of_nat m) = Some 255 -> (forall j, j < 0 \/ 0 + Z.of_nat m < j -> zget v' j = zget (ps_user z) j) ->
     psg_inv envs (Z.max ue (Z.of_nat m)) (mkPsgSt (ps_chans z) v' true)).
  { intros z v' [[HL (HU1 & HU2 & HU3)] Hi] E L G F. split.
    - split; [exact HL|]. cbn. split; [exact L|split].
      + right. destruct (Z.le_gt_cases ue (Z.of_nat m)).
        * rewrite Z.max_r by lia. split; [lia|]. exact G.
        * rewrite Z.max_l by lia. destruct HU2 as [->|[Hr HU2]]; [lia|]. split; [exact Hr|]. rewrite F by lia. exact HU2.
      + intros _. lia.
    - intros c ch Hc. destruct (Hi c ch Hc) as [N K]. split; [exact N|].
      assert (Mono : forall p, pok envs ue p -> pok envs (Z.max ue (Z.of_nat m)) p).
      { intros [|i|k i]; cbn; auto. lia. }
      destruct K as (K1 & K2 & K3 & K4 & K5). unfold chok.
      split; [exact K1|split; [exact K2|split; [apply Mono; exact K3|split; [intros; apply Mono; auto|exact K5]]]]. }
  exists (Z.max ue (Z.of_nat m)), (mkPsgSt (ps_chans x) v true), (mkPsgSt (ps_chans y) w true), [].
  cbn [psg_step]. unfold midi_psg_load_envelope, bind, get. rewrite Ex, Ey. split; [reflexivity|]. split; [reflexivity|].
  split; [eapply J; eassumption|]. split; [eapply J; eassumption|]. split; [exact Ec|]. split; [reflexivity|].
  cbn [ps_user]. intros i Hi. destruct (Z.le_gt_cases i (Z.of_nat m)) as [Hle|Hgt].
  - replace i with (0 + Z.of_nat (Z.to_nat i)) by lia. rewrite C1, C2 by lia. reflexivity.
  - rewrite F1, F2 by lia. apply A. lia.
Qed.

Lemma step_alike ue op x y : alike ue x y -> pop_ok op -> same_way (psg_step pal envs op) x y.
Proof.
  intros H Hop. assert (Lx : length (ps_chans x) = 4%nat) by apply H. assert (Ly : length (ps_chans y) = 4%nat) by (destruct H as (_ & H & _); apply H).
  assert (G : forall c k (m : list Z -> bool -> M psgchan unit), is_psg c -> cop_ok k -> (forall u up, m u up = cfun pal envs u up k) ->
    psg_step pal envs op x = on_chan c m x -> psg_step pal envs op y = on_chan c m y -> same_way (psg_step pal envs op) x y).
  { intros c k m Hc Hk Hm Ex Ey. destruct (on_chan_alike ue x y c k m H Hc Hk Hm) as (x' & y' & o & E1 & E2 & E3).
    exists ue, x', y', o. split; [congruence|]. split; [congruence|exact E3]. }
  destruct op; cbn [pop_ok] in Hop.
  - exists ue, (reset_state x), (reset_state y), []. cbn [psg_step].
    rewrite !(reset_exec envs Henvs) by assumption. split; [reflexivity|]. split; [reflexivity|].
    destruct H as (Ix & Iy & _ & _ & A). split; [apply reset_inv; [exact Henvs|apply Ix]|]. split; [apply reset_inv; [exact Henvs|apply Iy]|].
    split; [reflexivity|]. split; [reflexivity|exact A].
  - destruct (pitch <? 45) eqn:Ep.
    + exists ue, x, y, []. cbn. unfold midi_psg_note_on, MIN_MIDI_KEY. rewrite Ep. auto.
    + eapply (G c (CNoteOn pitch cents vel)); [tauto|cbn; tauto|reflexivity| |]; cbn; unfold midi_psg_note_on, MIN_MIDI_KEY; rewrite Ep; reflexivity.
  - eapply (G c COff); [exact Hop|exact I|reflexivity|reflexivity|reflexivity].
  - assert (K : forall z, length (ps_chans z) = 4%nat -> psg_step pal envs (PAllOff c) z = on_chan c (fun _ _ => chan_note_off) z).
    { intros z Lz. cbn. unfold midi_psg_all_notes_off, bind, get, rd. destruct (zget_in_range (ps_chans z) c) as [ch ->]; [rewrite Lz; unfold is_psg in Hop; lia|].
      cbn. unfold midi_psg_note_off. destruct (on_chan c _ z); reflexivity. }
    eapply (G c COff); [exact Hop|exact I|reflexivity|apply K, Lx|apply K, Ly].
  - eapply (G c (CVol v)); [tauto|cbn; tauto|reflexivity|reflexivity|reflexivity].
  - eapply (G c (CProg p)); [tauto|cbn; tauto|reflexivity|reflexivity|reflexivity].
  - exists ue, x, y, []. auto.
  - destruct (tick_alike ue [0;1;2;3]) with (x := x) (y := y) as (x' & y' & o & E1 & E2 & E3); [|exact H|].
    + intros c Hc. cbn in Hc. unfold is_psg. intuition lia.
    + exists ue, x', y', o. auto.
  - exact (load_alike ue x y eef H Hop).
  - eapply (G c (CPitch pitch cents)); [tauto|cbn; tauto|reflexivity|reflexivity|reflexivity].
Qed.
Lemma run_alike ops : Forall pop_ok ops -> forall ue x y, alike ue x y -> same_way (psg_run pal envs ops) x y.
Proof.
  induction 1 as [|op t Hop Ht IH]; intros ue x y H.
  - exists ue, x, y, []. auto.
  - destruct (step_alike ue op x y H Hop) as (ue1 & x1 & y1 & o1 & Ex & Ey & H1).
    destruct (IH ue1 x1 y1 H1) as (ue2 & x2 & y2 & o2 & Ex2 & Ey2 & H2).
    exists ue2, x2, y2, (o1 ++ o2). unfold psg_run in *. cbn [runM]. unfold bind. rewrite Ex, Ex2, Ey, Ey2. auto.
Qed.

(** After a reset only the buffer differs. *)
Lemma reset_alike ue ue' x y : psg_inv envs ue x -> psg_inv envs ue' y -> alike (-1) (reset_state x) (reset_state y).
Proof.
  intros [[Lx (Ux & _)] _] [[Ly (Uy & _)] _]. unfold alike.
  assert (B : forall z, length (ps_chans z) = 4%nat -> length (ps_user z) = 256%nat -> psg_inv envs (-1) (reset_state z)).
  { intros z Hz Hz'. change (reset_state z) with (reset_state (mkPsgSt (ps_chans z) (ps_user z) false)).
    apply reset_inv; [exact Henvs|]. split; [exact Hz|]. split; [exact Hz'|]. split; [left; reflexivity|discriminate]. }
  split; [apply B; assumption|]. split; [apply B; assumption|]. split; [reflexivity|]. split; [reflexivity|]. intros i Hi. lia.
Qed.
End Alike.
