From Verif Require Import Base BaseLemmas PitchModel PitchProofs NotePriorityModel NotePriorityProofs SynthModel.
From Verif Require SynthSpec PsgSpec.
From Verif Require Import MidiModel MidiSpec.

(** * Reasoning about [wres] *)
(** Faults satisfy [E]; otherwise the calls satisfy [C] and the result [Q]. *)
Definition wpw {A} (E : fault -> Prop) (C : dcall -> Prop) (m : wres A) (Q : A -> Prop) : Prop :=
  match m with WDone a o => Forall C o /\ Q a | WFault f => E f end.
Definition nofault : fault -> Prop := fun _ => False.

Lemma wpw_ret {A} E C (a : A) (Q : A -> Prop) : Q a -> wpw E C (wret a) Q.
Proof. intros H. split; [constructor|exact H]. Qed.
Lemma wpw_emit E (C : dcall -> Prop) c (Q : unit -> Prop) : C c -> Q tt -> wpw E C (wemit c) Q.
Proof. intros H H'. split; [repeat constructor; exact H|exact H']. Qed.
Lemma wpw_bind {A B} E C (m : wres A) (k : A -> wres B) (Q : B -> Prop) :
  wpw E C m (fun a => wpw E C (k a) Q) -> wpw E C (wbind m k) Q.
Proof.
  unfold wpw, wbind. destruct m as [a o|f]; [|exact (fun H => H)].
  intros [H1 H2]. destruct (k a) as [b o'|f]; [|exact H2].
  destruct H2. split; [apply Forall_app; split|]; assumption.
Qed.
Lemma wpw_mono {A} (E E' : fault -> Prop) (C C' : dcall -> Prop) (m : wres A) (Q Q' : A -> Prop) :
  wpw E C m Q -> (forall f, E f -> E' f) -> (forall c, C c -> C' c) -> (forall a, Q a -> Q' a) -> wpw E' C' m Q'.
Proof.
  unfold wpw. destruct m as [a o|f]; [|auto]. intros [H1 H2] HE HC HQ. split; [|auto].
  eapply Forall_impl; [exact HC|exact H1].
Qed.
Lemma wpw_post {A} E C (m : wres A) (Q Q' : A -> Prop) :
  wpw E C m Q -> (forall a, Q a -> Q' a) -> wpw E C m Q'.
Proof. intros H H'. eapply wpw_mono; eauto. Qed.
Lemma wpw_get {A} E C (l : list A) i x (Q : A -> Prop) :
  zget l i = Some x -> Q x -> wpw E C (wget l i) Q.
Proof. unfold wget. intros -> H. apply wpw_ret, H. Qed.
Lemma wpw_get_in {A} E C (l : list A) i (Q : A -> Prop) :
  0 <= i < Z.of_nat (length l) -> (forall x, zget l i = Some x -> Q x) -> wpw E C (wget l i) Q.
Proof. intros H HQ. destruct (zget_in_range l i H) as [x Hx]. eapply wpw_get; eauto. Qed.
(** Partial correctness: nothing to prove when the read faults. *)
Lemma wpw_get_any {A} (E : fault -> Prop) C (l : list A) i (Q : A -> Prop) :
  E F_oob -> (forall x, zget l i = Some x -> Q x) -> wpw E C (wget l i) Q.
Proof. unfold wget. intros HE H. destruct (zget l i); [apply wpw_ret; auto|exact HE]. Qed.
Lemma wpw_done {A} C (m : wres A) (Q : A -> Prop) :
  wpw nofault C m Q -> exists a o, m = WDone a o /\ Forall C o /\ Q a.
Proof. unfold wpw. destruct m; [eauto|intros []]. Qed.

(** Pointwise rules for the loops over device channels. *)
Lemma wpw_for_with E C mc f (R : dev -> dev -> Prop) l :
  (forall d, In d l -> d_midi d = mc -> wpw E C (f d) (R d)) ->
  (forall d, In d l -> d_midi d <> mc -> R d d) ->
  wpw E C (for_with mc f l) (Forall2 R l).
Proof.
  induction l as [|d t IH]; intros H1 H2; cbn [for_with]; [apply wpw_ret; constructor|].
  apply wpw_bind. apply wpw_post with (R d).
  - destruct (Z.eqb_spec (d_midi d) mc).
    + apply H1; [left; reflexivity|assumption].
    + apply wpw_ret, H2; [left; reflexivity|assumption].
  - intros d' Hd. apply wpw_bind. eapply wpw_post.
    + apply IH; intros; [apply H1|apply H2]; auto; right; assumption.
    + intros t' Ht. apply wpw_ret. constructor; assumption.
Qed.

(** Indexed version of [Forall2]. *)
Definition pointwise {A} (R : Z -> A -> A -> Prop) (l l' : list A) : Prop :=
  length l' = length l /\ forall i x x', zget l i = Some x -> zget l' i = Some x' -> R i x x'.

Lemma zget_cons {A} (x : A) l i : zget (x :: l) i = if i =? 0 then Some x else zget l (i - 1).
Proof.
  unfold zget. destruct (Z.eqb_spec i 0) as [->|H]; [reflexivity|].
  destruct (Z.ltb_spec i 0), (Z.ltb_spec (i - 1) 0); try lia; [reflexivity|].
  replace (Z.to_nat i) with (S (Z.to_nat (i - 1))) by lia. reflexivity.
Qed.
Lemma zget_nil {A} i : zget (@nil A) i = None.
Proof. unfold zget. destruct (i <? 0); [reflexivity|]. destruct (Z.to_nat i); reflexivity. Qed.

Lemma Forall2_zget {A} (R : A -> A -> Prop) l l' :
  Forall2 R l l' -> length l' = length l /\
  forall i x x', zget l i = Some x -> zget l' i = Some x' -> R x x'.
Proof.
  induction 1 as [|x y l l' HR HF [IH1 IH2]]; [split; [reflexivity|]; intros i ? ? H; rewrite zget_nil in H; discriminate|].
  split; [cbn; congruence|]. intros i a b. rewrite !zget_cons. destruct (i =? 0).
  - intros [= <-] [= <-]; assumption.
  - apply IH2.
Qed.
Lemma Forall2_zget_l {A} (R : A -> A -> Prop) l l' i x' :
  Forall2 R l l' -> zget l' i = Some x' -> exists x, zget l i = Some x /\ R x x'.
Proof.
  intros H Hx. apply Forall2_zget in H as [Hl H].
  destruct (zget_in_range l i) as [x Hx0]; [rewrite <- Hl; apply (zget_Some _ _ _ Hx)|].
  exists x. split; [assumption|]. eapply H; eassumption.
Qed.
Lemma Forall2_zget_r {A} (R : A -> A -> Prop) l l' i x :
  Forall2 R l l' -> zget l i = Some x -> exists x', zget l' i = Some x' /\ R x x'.
Proof.
  intros H Hx. apply Forall2_zget in H as [Hl H].
  destruct (zget_in_range l' i) as [x' Hx0]; [rewrite Hl; apply (zget_Some _ _ _ Hx)|].
  exists x'. split; [assumption|]. eapply H; eassumption.
Qed.

(** * Exact effect of synchronising a device channel with its MIDI channel *)
Definition eff (m : mchan) (d : dev) : pitchcents :=
  pc_shift (pc_bend (d_pitch d) (d_cents d) (d_bend d) (m_range m)) (m_fine m).
Definition synced (m : mchan) (d : dev) : dev :=
  mkDev (d_num d) (d_ops d) (d_on d) (d_midi d) (m_prog m) (d_pitch d) (m_vol m) (m_pan m) (m_bend m)
        (d_cents d) (d_glide d).
Definition sync_calls (m : mchan) (d : dev) : list dcall :=
  [DPerc (d_num d) (d_midi d =? 9)]
  ++ (if d_vol d =? m_vol m then [] else [DVolume (d_ops d) (d_num d) (m_vol m)])
  ++ (if d_pan d =? m_pan m then [] else [DPan (d_ops d) (d_num d) (m_pan m)])
  ++ (if d_prog d =? m_prog m then [] else [DProgram (d_ops d) (d_num d) (m_prog m)])
  ++ (if d_bend d =? m_bend m then []
      else [DPitch (d_ops d) (d_num d) (pc_pitch (eff m (synced m d))) (pc_cents (eff m (synced m d)))]).

Lemma wget_Some {A} (l : list A) i x : zget l i = Some x -> wget l i = wret x.
Proof. unfold wget. intros ->. reflexivity. Qed.

Lemma update_from_midi_eq chs d m :
  zget chs (d_midi d) = Some m -> update_from_midi chs d = WDone (synced m d) (sync_calls m d).
Proof.
  intros H. unfold update_from_midi. rewrite (wget_Some _ _ _ H).
  unfold update_volume, update_pan, update_program, update_pitch_bend, set_downstream_pitch, effectivePitchCents.
  unfold sync_calls, synced. destruct d as [num ops on mi prog pit vol pan bend cents gl]; cbn in *.
  destruct (Z.eqb_spec vol (m_vol m)) as [<-|]; cbn;
  destruct (Z.eqb_spec pan (m_pan m)) as [<-|]; cbn;
  destruct (Z.eqb_spec prog (m_prog m)) as [<-|]; cbn;
  destruct (Z.eqb_spec bend (m_bend m)) as [<-|]; cbn;
  try rewrite (wget_Some _ _ _ H); reflexivity.
Qed.

Global Arguments wpw : simpl never.
Global Arguments wbind : simpl never.

(** The device channel [init_device_channel] leaves before synchronising. *)
Definition fresh_dev (i : Z) (d : dev) : dev :=
  mkDev (if i <=? 5 then i else if i <=? 9 then u8 (i - 6) else u8 (i - 10))
        (if i <=? 5 then VFm else if i <=? 9 then VPsg else VSm)
        false i (d_prog d) 0 (d_vol d) (d_pan d) BEND_CENTRE 0 0.
Lemma init_device_channel_eq chs i d m :
  zget chs i = Some m ->
  init_device_channel chs i d = WDone (synced m (fresh_dev i d)) (sync_calls m (fresh_dev i d)).
Proof.
  intros H. unfold init_device_channel, fresh_dev.
  destruct (i <=? 5); [|destruct (i <=? 9)]; (rewrite (update_from_midi_eq _ _ m); [reflexivity|exact H]).
Qed.

Lemma eff_range m d : 0 <= pc_pitch (eff m d) < 256 /\ 0 <= pc_cents (eff m d) < 100.
Proof. unfold eff. destruct (pc_shift_norm (pc_bend (d_pitch d) (d_cents d) (d_bend d) (m_range m)) (m_fine m)). lia. Qed.

(** * Well-formedness is preserved *)
Lemma shape_voice i d : 0 <= i < 13 -> shape_ok i d -> voice_ok (d_ops d) (d_num d).
Proof.
  intros Hi (H1 & H2 & H3). destruct (Z_lt_le_dec i 6); [|destruct (Z_lt_le_dec i 10)].
  - destruct H1 as [-> [-> | [-> ->]]]; cbn; lia.
  - destruct H2 as [-> ->]; cbn; lia.
  - destruct H3 as [-> ->]; cbn; lia.
Qed.
Lemma shape_num i d : 0 <= i < 13 -> shape_ok i d -> 0 <= d_num d < 6.
Proof.
  intros Hi (H1 & H2 & H3). destruct (Z_lt_le_dec i 6); [|destruct (Z_lt_le_dec i 10)].
  - destruct H1 as [-> _]; lia.
  - destruct H2 as [-> _]; lia.
  - destruct H3 as [-> _]; lia.
Qed.

(** A device channel that moved to legal values: the frame for [dev_ok]. *)
Definition same_shape (d d' : dev) : Prop := d_num d' = d_num d /\ d_ops d' = d_ops d.
Lemma shape_same i d d' : shape_ok i d -> same_shape d d' -> shape_ok i d'.
Proof. intros H [E1 E2]. unfold shape_ok. rewrite E1, E2. exact H. Qed.

Lemma stack_repr st : stack_ok st -> np_repr st (keys st).
Proof.
  intros (Hl & Ht & _). unfold np_repr, keys. rewrite firstn_length.
  split; [assumption|]. split; [lia|]. split; [lia|].
  exists (skipn (Z.to_nat (np_top st + 1)) (np_slot st)). symmetry. apply firstn_skipn.
Qed.
Lemma repr_keys st l : np_repr st l -> keys st = l.
Proof.
  intros (Hl & Ht & Hle & rest & Hs). unfold keys. rewrite Ht, Hs.
  replace (Z.to_nat (Z.of_nat (length l) - 1 + 1)) with (length l) by lia.
  rewrite firstn_app, firstn_all, Nat.sub_diag. cbn. apply app_nil_r.
Qed.
Lemma repr_stack st l : np_repr st l -> Forall seven l -> stack_ok st.
Proof.
  intros H HF. rewrite <- (repr_keys _ _ H) in HF. destruct H as (Hl & Ht & Hle & _).
  split; [assumption|]. split; [lia|assumption].
Qed.
Lemma keys_init : keys note_priority_init = [].
Proof. reflexivity. Qed.

Lemma of_np_push st p :
  stack_ok st -> seven p ->
  exists st', of_np (note_priority_push p) st = WDone (tt, st') [] /\ stack_ok st' /\
              keys st' = (if Nat.ltb (length (keys st)) 10 then keys st ++ [p] else keys st).
Proof.
  intros H Hp. destruct (np_push_ok st (keys st) p (stack_repr _ H)) as (st' & E & R).
  { unfold seven in Hp; lia. }
  exists st'. unfold of_np. rewrite E. split; [reflexivity|]. split; [|exact (repr_keys _ _ R)].
  eapply repr_stack; [exact R|]. destruct H as (_ & _ & HF).
  destruct (Nat.ltb _ _); [|assumption]. apply Forall_app; split; [assumption|repeat constructor; apply Hp].
Qed.
Lemma of_np_remove st p :
  stack_ok st ->
  exists st', of_np (note_priority_remove p) st = WDone (tt, st') [] /\ stack_ok st' /\
              keys st' = filter (fun x => negb (x =? p)) (keys st).
Proof.
  intros H. destruct (np_remove_ok st (keys st) p (stack_repr _ H)) as (st' & E & R).
  exists st'. unfold of_np. rewrite E. split; [reflexivity|]. split; [|exact (repr_keys _ _ R)].
  eapply repr_stack; [exact R|]. destruct H as (_ & _ & HF).
  rewrite Forall_forall in *. intros x Hx. apply filter_In in Hx. apply HF, Hx.
Qed.
Lemma In_removelast {A} (l : list A) x : In x (removelast l) -> In x l.
Proof.
  induction l as [|a l IH]; [exact (fun H => H)|]. cbn. destruct l as [|b l']; [intros []|].
  intros [->|H]; [left; reflexivity|right; apply IH, H].
Qed.
Lemma last_In {A} (l : list A) d : l <> [] -> In (last l d) l.
Proof.
  induction l as [|a l IH]; [congruence|]. intros _. destruct l as [|b l']; [left; reflexivity|].
  right. apply IH. discriminate.
Qed.
Lemma last_seven l : Forall seven l -> seven (last l 0).
Proof.
  intros H. destruct l as [|a l]; [cbn; unfold seven; lia|].
  rewrite Forall_forall in H. apply H, last_In. discriminate.
Qed.
Lemma of_np_pop st :
  stack_ok st ->
  exists st', of_np note_priority_pop st = WDone (last (keys st) 0, st') [] /\ stack_ok st' /\
              keys st' = removelast (keys st) /\ seven (last (keys st) 0).
Proof.
  intros H. destruct (np_pop_ok st (keys st) (stack_repr _ H)) as (st' & E & R).
  exists st'. unfold of_np. rewrite E. split; [reflexivity|]. destruct H as (_ & _ & HF).
  split; [|split; [exact (repr_keys _ _ R)|apply last_seven, HF]].
  eapply repr_stack; [exact R|]. rewrite Forall_forall in *. intros x Hx. apply HF, In_removelast, Hx.
Qed.

(** Accessing and replacing parts of a well-formed state. *)
Lemma ok_dev s i d : midi_ok s -> zget (md_dev s) i = Some d -> dev_ok i d /\ 0 <= i < 13.
Proof.
  intros (H1 & _ & H3 & _) E. split; [exact (H3 _ _ E)|]. apply zget_Some in E. lia.
Qed.
Lemma ok_ch s i m : midi_ok s -> zget (md_ch s) i = Some m -> ch_ok i m /\ 0 <= i < 16.
Proof.
  intros (_ & H2 & _ & H4 & _) E. split; [exact (H4 _ _ E)|]. apply zget_Some in E. lia.
Qed.
Lemma ok_ch_get s c : midi_ok s -> is_chan c -> exists m, zget (md_ch s) c = Some m /\ ch_ok c m.
Proof.
  intros H Hc. destruct (zget_in_range (md_ch s) c) as [m Hm].
  { destruct H as (_ & -> & _). unfold is_chan in Hc. lia. }
  exists m. split; [assumption|]. apply (ok_ch _ _ _ H Hm).
Qed.
Lemma ok_dev_get s i : midi_ok s -> 0 <= i < 13 -> exists d, zget (md_dev s) i = Some d /\ dev_ok i d.
Proof.
  intros H Hc. destruct (zget_in_range (md_dev s) i) as [m Hm].
  { destruct H as (-> & _). lia. }
  exists m. split; [assumption|]. apply (ok_dev _ _ _ H Hm).
Qed.

Definition devs_ok (l : list dev) : Prop := length l = 13%nat /\ forall i d, zget l i = Some d -> dev_ok i d.
Definition chs_ok (l : list mchan) : Prop := length l = 16%nat /\ forall i m, zget l i = Some m -> ch_ok i m.
Lemma midi_ok_parts s : midi_ok s <-> devs_ok (md_dev s) /\ chs_ok (md_ch s) /\ 0 <= md_pref s <= 2.
Proof. unfold midi_ok, devs_ok, chs_ok. tauto. Qed.

Lemma zget_zset_inv {A} (l : list A) i j x y :
  zget (zset l i x) j = Some y -> (j = i /\ y = x) \/ (j <> i /\ zget l j = Some y).
Proof.
  intros H. destruct (Z.eq_dec j i) as [->|Hne].
  - left. split; [reflexivity|]. rewrite zget_zset_same in H; [congruence|].
    apply zget_Some in H. rewrite zset_length in H. exact H.
  - right. rewrite zget_zset_other in H; auto.
Qed.
Lemma chs_ok_set l i m : chs_ok l -> ch_ok i m -> chs_ok (zset l i m).
Proof.
  intros [H1 H2] Hm. split; [rewrite zset_length; assumption|].
  intros j x Hx. destruct (zget_zset_inv _ _ _ _ _ Hx) as [[-> ->]|[_ Hx']]; auto.
Qed.
Lemma devs_ok_set l i d : devs_ok l -> dev_ok i d -> devs_ok (zset l i d).
Proof.
  intros [H1 H2] Hm. split; [rewrite zset_length; assumption|].
  intros j x Hx. destruct (zget_zset_inv _ _ _ _ _ Hx) as [[-> ->]|[_ Hx']]; auto.
Qed.
Lemma devs_ok_F2 (R : dev -> dev -> Prop) l l' :
  devs_ok l -> Forall2 R l l' -> (forall i d d', 0 <= i < 13 -> zget l i = Some d -> dev_ok i d -> R d d' -> dev_ok i d') -> devs_ok l'.
Proof.
  intros [H1 H2] HF HR. split; [apply Forall2_zget in HF as [-> _]; assumption|].
  intros i d' Hd. destruct (Forall2_zget_l _ _ _ _ _ HF Hd) as (d & Hd0 & Hr).
  eapply HR; eauto. apply zget_Some in Hd0. lia.
Qed.
