(** One voice per channel: the exact key-priority machine, and when it is what a player expects. *)
From Verif Require Import Base BaseLemmas PitchModel PitchProofs NotePriorityModel NotePriorityProofs SynthModel.
From Verif Require Import MidiModel MidiSpec MidiProofs MidiOkProofs MidiEqProofs MidiEffectProofs MidiNoteProofs MidiHistProofs MidiMapProofs MidiStaticProofs MidiChanProofs MidiCarryProofs.

(** The machine: the stack, and the key that sounds. *)
Definition mono : Type := list Z * option Z.
Definition m_press (x : mono) (p : Z) : mono :=
  if (length (fst x) =? 10)%nat then x else (fst x ++ [p], Some p).
Definition m_release (x : mono) (p : Z) : mono :=
  let st := filter (fun k => negb (k =? p)) (fst x) in
  let next := last st 0 in
  (removelast st,
   match snd x with
   | Some q => if q =? p then (if next =? 0 then None else Some next) else Some q
   | None => None
   end).

Definition is_mono (s : midi) (c : Z) (x : mono) : Prop :=
  midi_ok s /\ static_map s /\ 0 <= c < 13 /\
  (exists m, ch_at s c m /\ m_porta m = false /\ keys (m_np m) = fst x) /\
  (exists d, dev_at s c d /\ d_glide d = 0 /\
     match snd x with Some p => d_on d = true /\ d_pitch d = p | None => d_on d = false end).

Lemma is_mono_sounds s c x : is_mono s c x -> sounds_only s c (snd x).
Proof.
  intros (Hs & Hst & Hc & _ & d & Hd & Hg & Hx) p. destruct Hst as [_ H2]. split.
  - intros (i & e & [He Hm] & Ho & Hn). rewrite (H2 i e He) in Hm. subst i. unfold dev_at in *. rewrite Hd in He. injection He as <-.
    unfold note_of in Hn. rewrite Hg, Z.eqb_refl in Hn. destruct (snd x) as [q|]; [destruct Hx as [_ Hx]; congruence|congruence].
  - intros Hq. rewrite Hq in Hx. destruct Hx as [Ho Hp]. exists c, d. split; [split; [exact Hd|apply (H2 c d Hd)]|].
    split; [exact Ho|]. unfold note_of. rewrite Hg, Z.eqb_refl. exact Hp.
Qed.

Lemma on_ok s op s' o : midi_ok s -> mop_ok op -> steps s op s' o -> midi_ok s'.
Proof.
  intros Hs Ho E. assert (W := midi_step_ok op s Hs Ho). unfold steps in E. rewrite E in W. apply W.
Qed.
Lemma not_remaps_on c p v : ~ remaps (MNoteOn c p v).
Proof. unfold remaps. intros [(a & b & H)|[(a & H)|[(a & H)|(t & H)]]]; discriminate. Qed.
Lemma not_remaps_off c p : ~ remaps (MNoteOff c p).
Proof. unfold remaps. intros [(a & b & H)|[(a & H)|[(a & H)|(t & H)]]]; discriminate. Qed.

Lemma press_step s c x p v : is_mono s c x -> seven p -> 1 <= v <= 127 ->
  exists s' o, steps s (MNoteOn c p v) s' o /\ is_mono s' c (m_press x p).
Proof.
  intros (Hs & Hst & Hc & (m & Hm & Hpo & Hk) & d & Hd & Hg & Hx) Hp Hv.
  assert (Hcc : is_chan c) by (unfold is_chan; lia).
  destruct (midi_note_on_eq c p v s m Hs Hcc Hp ltac:(lia) Hm) as (s' & o & E & R).
  exists s', o. split; [exact E|].
  assert (Hs' : midi_ok s') by (apply (on_ok s (MNoteOn c p v) s' o Hs); [cbn; unfold seven in *; repeat split; lia|exact E]).
  assert (Hst' : static_map s').
  { apply (static_step (MNoteOn c p v) tt s s' o); auto using not_remaps_on. cbn; unfold seven in *; repeat split; lia. }
  unfold is_mono. split; [exact Hs'|]. split; [exact Hst'|]. split; [exact Hc|]. clear Hs' Hst' E.
  unfold m_press. destruct R as [[Ht|[Ht|[_ Ht]]]|i e st Ht Ci He _ _ _ Hpo' _|i e st Ht Ci He _ Hsk Ek _|i e Ht Ci He Hvc].
  - exfalso. unfold tooManyPercussiveNotes in Ht. destruct (negb _); [discriminate|]. rewrite perc_loop_count in Ht by lia.
    assert (N : (length (filter perc (md_dev s)) <= 1)%nat).
    { apply (filter_one _ _ 9). intros j y Hy Hpx. apply andb_prop in Hpx as [Hpx _]. destruct Hst as [_ H2].
      rewrite <- (H2 j y Hy). lia. }
    apply Z.leb_le in Ht. lia.
  - exfalso. unfold chosen in Ht. destruct (device_min_max (m_sel m)) as [lo hi]. destruct Hst as [H1 H2]. rewrite H1 in Ht.
    destruct (first_dev _ _ _) in Ht; [discriminate|]. cbn [orelse] in Ht. unfold by_midi in Ht.
    assert (X := first_dev_none _ _ _ _ c d Ht ltac:(lia) Hd). cbv beta in X. rewrite (H2 c d Hd) in X. lia.
  - rewrite <- Hk, Ht. cbn [Nat.eqb]. split; [exists m; auto|exists d; auto].
  - congruence.
  - assert (L : (length (keys (m_np m)) =? 10)%nat = false).
    { assert (Hrep := stack_repr _ Hsk). destruct Hrep as (_ & _ & L & _).
      rewrite Ek, app_length in L. cbn in L. apply Nat.eqb_neq. lia. }
    rewrite <- Hk, L. destruct (static_chosen s m c i e Hst Ci He) as [-> Hmi]. unfold dev_at in Hd. rewrite Hd in He. injection He as <-.
    split.
    + exists (m_set_vel (m_set_np m st) v). split; [|split; [exact Hpo|exact Ek]].
      unfold ch_at. cbn [md_ch md_set_ch md_set_dev]. rewrite zget_zset_same; [reflexivity|eapply zget_Some; exact Hm].
    + exists (started (m_set_vel (m_set_np m st) v) c p (d_set_glide d 0)). split.
      * unfold dev_at. cbn [md_dev md_set_dev]. rewrite zget_zset_same; [reflexivity|eapply zget_Some; exact Hd].
      * destruct (started_note (m_set_vel (m_set_np m st) v) c p (d_set_glide d 0)) as (N1 & N2 & N3 & N4). cbn [snd]. rewrite N1, N3, N4. auto.
  - exfalso. apply Hvc. apply static_single; assumption.
Qed.

Lemma sounding_single s c d : midi_ok s -> static_map s -> dev_at s c d -> d_on d = true -> voice_count c true (md_dev s) = 1.
Proof.
  intros Hs Hst Hd Ho. assert (Hc : 0 <= c < 13) by (destruct (ok_dev _ _ _ Hs Hd); assumption).
  assert (V := static_single s c Hs Hst Hc).
  assert (K : forall l, voice_count c true l <= voice_count c false l).
  { induction l as [|e t IH]; cbn [voice_count]; [lia|]. destruct (d_midi e =? c), (d_on e); cbn; lia. }
  assert (K1 : forall l i, zget l i = Some d -> 1 <= voice_count c true l).
  { intros l i Hi. destruct Hst as [_ H2]. specialize (H2 c d Hd). apply zget_In in Hi.
    induction l as [|e t IH]; [destruct Hi|]. cbn [voice_count]. destruct Hi as [->|Hi].
    - rewrite H2, Z.eqb_refl, Ho. cbn. assert (N := voice_count_nonneg c true t). lia.
    - specialize (IH Hi). match goal with |- context [if ?b then 1 else 0] => destruct b end; lia. }
  specialize (K (md_dev s)). specialize (K1 (md_dev s) c Hd). lia.
Qed.

Lemma release_step s c x p : is_mono s c x -> seven p ->
  exists s' o, steps s (MNoteOff c p) s' o /\ is_mono s' c (m_release x p).
Proof.
  intros (Hs & Hst & Hc & (m & Hm & Hpo & Hk) & d & Hd & Hg & Hx) Hp.
  assert (Hcc : is_chan c) by (unfold is_chan; lia).
  destruct (midi_note_off_eq c p s m Hs Hcc Hm) as (st & K1 & K2 & E).
  do 2 eexists. split; [exact E|].
  match type of E with _ = WDone ?a ?b => set (s' := a) in *; set (o := b) in * end.
  assert (Hs' : midi_ok s') by (apply (on_ok s (MNoteOff c p) s' o Hs); [cbn; unfold seven in *; repeat split; lia|exact E]).
  assert (Hst' : static_map s').
  { apply (static_step (MNoteOff c p) tt s s' o); auto using not_remaps_off. cbn; unfold seven in *; repeat split; lia. }
  unfold is_mono. split; [exact Hs'|]. split; [exact Hst'|]. split; [exact Hc|].
  unfold s', o in *. clear s' o Hs' Hst' E. unfold m_release. rewrite <- Hk. split.
  - exists (m_set_np m st). split; [|split; [exact Hpo|]].
    + unfold ch_at. cbn [md_ch md_set_ch md_set_dev]. rewrite zget_zset_same; [reflexivity|eapply zget_Some; exact Hm].
    + cbn [m_np m_set_np fst]. rewrite K2. unfold note_off_keys. rewrite Hpo, andb_false_r. reflexivity.
  - exists (note_off_dev s m c p d). split.
    + unfold dev_at. cbn [md_dev md_set_dev]. rewrite zget_map. unfold dev_at in Hd. rewrite Hd. reflexivity.
    + cbn [fst snd]. fold (off_stack m p). fold (off_next m p).
      unfold note_off_dev, serves_note, isChannelPlayingNote. destruct Hst as [H1 H2] eqn:EH. rewrite (H2 c d Hd), Hg, !Z.eqb_refl.
      cbn [negb andb]. destruct (snd x) as [q|].
      * destruct Hx as [Ho Hq]. rewrite Ho, Hq. cbn [andb]. destruct (Z.eqb_spec q p) as [->|Hqp].
        -- unfold falls_back. rewrite (sounding_single s c d Hs Hst Hd Ho), !Z.eqb_refl.
           rewrite Hpo. destruct (Z.eqb_spec (off_next m p) 0); cbn [negb andb]; cbn; auto.
        -- destruct (Z.eqb_spec q p); [contradiction|]. auto.
      * rewrite Hx. cbn [andb]. auto.
Qed.

(** Runs of key presses and releases. *)
Inductive key := KOn (p v : Z) | KOff (p : Z).
Definition key_op (c : Z) (k : key) : mop := match k with KOn p v => MNoteOn c p v | KOff p => MNoteOff c p end.
Definition key_ok (k : key) : Prop := match k with KOn p v => seven p /\ 1 <= v <= 127 | KOff p => seven p end.
Definition key_after (x : mono) (k : key) : mono := match k with KOn p _ => m_press x p | KOff p => m_release x p end.

Lemma key_run c : forall ks s x, is_mono s c x -> Forall key_ok ks ->
  exists s' o, midi_run (map (key_op c) ks) s = WDone s' o /\ is_mono s' c (fold_left key_after ks x).
Proof.
  induction ks as [|k t IH]; intros s x Hx Hk; cbn [map midi_run fold_left].
  { do 2 eexists. split; [reflexivity|exact Hx]. }
  inversion Hk as [|? ? K1 K2]; subst.
  assert (exists s' o, steps s (key_op c k) s' o /\ is_mono s' c (key_after x k)) as (s1 & o1 & E1 & H1).
  { destruct k as [p v|p]; [apply press_step; [exact Hx|apply K1|apply K1]|apply release_step; assumption]. }
  destruct (IH s1 (key_after x k) H1 K2) as (s' & o & E & H). exists s', (o1 ++ o). split; [|exact H].
  unfold steps in E1. rewrite E1. unfold wbind. rewrite E. reflexivity.
Qed.

Lemma idle_mono s c : mono_idle s c -> is_mono s c ([], None).
Proof.
  intros (H1 & H2 & H3 & (m & M1 & M2 & M3) & d & D1 & D2 & D3). unfold is_mono. cbn [fst snd].
  split; [exact H1|]. split; [exact H2|]. split; [exact H3|]. split; [exists m; auto|exists d; auto].
Qed.

(** ** The exact machine *)
Theorem mono_exact s c ks : mono_idle s c -> Forall key_ok ks ->
  exists s' o, midi_run (map (key_op c) ks) s = WDone s' o /\
  sounds_only s' c (snd (fold_left key_after ks ([], None))).
Proof.
  intros Hs Hk. destruct (key_run c ks s _ (idle_mono _ _ Hs) Hk) as (s' & o & E & H).
  exists s', o. split; [exact E|apply is_mono_sounds, H].
Qed.

(** ** Stacks of distinct keys *)
Definition on_of (k : Z * Z) : key := KOn (fst k) (snd k).
Definition off_of (k : Z * Z) : key := KOff (fst k).
Lemma presses_keys c l : presses c l = map (key_op c) (map on_of l).
Proof. unfold presses. rewrite map_map. reflexivity. Qed.
Lemma releases_keys c l : releases c l = map (key_op c) (map off_of l).
Proof. unfold releases. rewrite map_map. reflexivity. Qed.
Definition last_opt (l : list Z) : option Z := hd_error (rev l).
Lemma last_opt_snoc l x : last_opt (l ++ [x]) = Some x.
Proof. unfold last_opt. rewrite rev_unit. reflexivity. Qed.
Lemma last_opt_last l : Forall (fun k => k <> 0) l -> (if last l 0 =? 0 then None else Some (last l 0)) = last_opt l.
Proof.
  intros H. destruct l as [|x l] using rev_ind; [reflexivity|]. rewrite last_opt_snoc, last_last.
  apply Forall_app in H as [_ H]. inversion H; subst. destruct (Z.eqb_spec x 0); [contradiction|reflexivity].
Qed.
Lemma press_all : forall l st snd0, (length st + length l <= 10)%nat ->
  fold_left key_after (map on_of l) (st, snd0)
  = (st ++ map fst l, match l with [] => snd0 | _ => last_opt (map fst l) end).
Proof.
  induction l as [|k t IH] using rev_ind; intros st s0 H; [cbn; rewrite app_nil_r; reflexivity|].
  rewrite !map_app, fold_left_app. rewrite app_length in H. cbn [length] in H. rewrite IH by lia.
  cbn [map fold_left key_after on_of]. unfold m_press. cbn [fst].
  rewrite app_length, map_length. destruct (Nat.eqb_spec (length st + length t) 10); [lia|].
  rewrite last_opt_snoc, <- app_assoc. destruct (t ++ [k]) eqn:E; [destruct t; discriminate|reflexivity].
Qed.
Lemma filter_absent p l : ~ In p l -> filter (fun k => negb (k =? p)) l = l.
Proof.
  induction l as [|x t IH]; intros H; cbn; [reflexivity|]. destruct (Z.eqb_spec x p) as [->|]; [exfalso; apply H; left; reflexivity|].
  cbn. f_equal. apply IH. intros ?; apply H; right; assumption.
Qed.
(** Before and after a last-in first-out release. *)
Definition lifo (l : list Z) (x : mono) : Prop := snd x = last_opt l /\ (fst x = l \/ fst x = removelast l).
Lemma removelast_snoc (l : list Z) x : removelast (l ++ [x]) = l.
Proof. rewrite removelast_app by discriminate. cbn. apply app_nil_r. Qed.
Lemma lifo_release l p x : NoDup (l ++ [p]) -> Forall (fun k => k <> 0) l -> lifo (l ++ [p]) x -> lifo l (m_release x p).
Proof.
  intros Hn Hz [H1 H2]. rewrite last_opt_snoc in H1. rewrite removelast_snoc in H2.
  assert (Hni : ~ In p l) by (apply NoDup_remove_2 in Hn; rewrite app_nil_r in Hn; exact Hn).
  assert (F : filter (fun k => negb (k =? p)) (fst x) = l).
  { destruct H2 as [-> | ->]; [rewrite filter_app; cbn; rewrite Z.eqb_refl; cbn; rewrite app_nil_r|]; apply filter_absent, Hni. }
  unfold m_release, lifo. rewrite F, H1. cbn [fst snd]. rewrite Z.eqb_refl. split; [|auto].
  apply last_opt_last, Hz.
Qed.
Lemma lifo_releases : forall suf pre x, NoDup (map fst (pre ++ suf)) -> Forall (fun k => k <> 0) (map fst (pre ++ suf)) ->
  lifo (map fst (pre ++ suf)) x -> lifo (map fst pre) (fold_left key_after (map off_of (rev suf)) x).
Proof.
  induction suf as [|k t IH] using rev_ind; intros pre x Hn Hz H; [rewrite app_nil_r in H; exact H|].
  rewrite rev_unit. cbn [map fold_left off_of key_after]. rewrite app_assoc, map_app in Hn, Hz, H. cbn [map] in Hn, Hz, H.
  apply IH.
  - apply NoDup_remove_1 in Hn. rewrite app_nil_r in Hn. exact Hn.
  - apply Forall_app in Hz. apply Hz.
  - apply lifo_release; [exact Hn|apply Forall_app in Hz; apply Hz|exact H].
Qed.

Lemma playable_on l : Forall playable l -> Forall key_ok (map on_of l).
Proof. intros H. apply Forall_map. eapply Forall_impl; [|exact H]. intros k [? ?]. cbn. unfold seven. lia. Qed.
Lemma playable_off l : Forall playable l -> Forall key_ok (map off_of l).
Proof. intros H. apply Forall_map. eapply Forall_impl; [|exact H]. intros k [? ?]. cbn. unfold seven. lia. Qed.
Lemma playable_nz l : Forall playable l -> Forall (fun k => k <> 0) (map fst l).
Proof. intros H. apply Forall_map. eapply Forall_impl; [|exact H]. intros k [? ?]. lia. Qed.

(** Keys pressed one after the other and let go in the opposite order. *)
Theorem mono_nested s c pre suf :
  mono_idle s c -> Forall playable (pre ++ suf) -> NoDup (map fst (pre ++ suf)) -> (length (pre ++ suf) <= 10)%nat ->
  exists s' o, midi_run (presses c (pre ++ suf) ++ releases c (rev suf)) s = WDone s' o /\
  sounds_only s' c (last_opt (map fst pre)).
Proof.
  intros Hs Hp Hn Hl. rewrite presses_keys, releases_keys, <- map_app.
  destruct (mono_exact s c (map on_of (pre ++ suf) ++ map off_of (rev suf)) Hs) as (s' & o & E & H).
  { apply Forall_app; split; [apply playable_on, Hp|apply playable_off]. apply Forall_app in Hp as [_ Hp].
    apply Forall_forall. intros k Hk. apply in_rev in Hk. rewrite Forall_forall in Hp. auto. }
  exists s', o. split; [exact E|]. rewrite fold_left_app in H. rewrite press_all in H by exact Hl.
  match type of H with context [fold_left key_after _ ?x] => set (y := x) in H end.
  assert (L : lifo (map fst pre) (fold_left key_after (map off_of (rev suf)) y)).
  { apply lifo_releases; [exact Hn|apply playable_nz, Hp|]. split; [|left; reflexivity].
    unfold y. cbn [snd]. destruct (pre ++ suf); reflexivity. }
  destruct L as [L _]. rewrite L in H. exact H.
Qed.

(** Any one of the keys held is let go. *)
Theorem mono_one_release s c l k :
  mono_idle s c -> Forall playable l -> NoDup (map fst l) -> (length l <= 10)%nat -> In k l ->
  exists s' o, midi_run (presses c l ++ [MNoteOff c (fst k)]) s = WDone s' o /\
  sounds_only s' c (last_opt (filter (fun q => negb (q =? fst k)) (map fst l))).
Proof.
  intros Hs Hp Hn Hl Hk. rewrite presses_keys. change [MNoteOff c (fst k)] with (map (key_op c) [off_of k]). rewrite <- map_app.
  destruct (mono_exact s c (map on_of l ++ [off_of k]) Hs) as (s' & o & E & H).
  { apply Forall_app; split; [apply playable_on, Hp|]. apply (playable_off [k]). constructor; [|constructor].
    rewrite Forall_forall in Hp. auto. }
  exists s', o. split; [exact E|]. rewrite fold_left_app in H. rewrite press_all in H by exact Hl. cbn [app] in H.
  cbn [fold_left key_after off_of] in H. unfold m_release in H. cbn [fst snd] in H.
  destruct l as [|k0 l0] using rev_ind; [destruct Hk|]. clear IHl0.
  replace (match l0 ++ [k0] with [] => None | _ :: _ => last_opt (map fst (l0 ++ [k0])) end) with (Some (fst k0)) in H.
  2:{ rewrite map_app. cbn [map]. rewrite last_opt_snoc. destruct (l0 ++ [k0]) eqn:E0; [destruct l0; discriminate|reflexivity]. }
  destruct (Z.eqb_spec (fst k0) (fst k)) as [Hkk|Hkk].
  - rewrite last_opt_last in H; [exact H|]. assert (Z0 := playable_nz _ Hp). rewrite Forall_forall in *.
    intros x Hx. apply filter_In in Hx. apply Z0, Hx.
  - rewrite map_app, filter_app. cbn [map filter]. destruct (Z.eqb_spec (fst k0) (fst k)); [contradiction|]. cbn [negb].
    rewrite last_opt_snoc. exact H.
Qed.

(** A legato line: two keys overlap at a time. *)
Lemma legato_keys c : forall l a, exists ks, legato c a l = map (key_op c) ks /\
  (seven a -> Forall playable l -> Forall key_ok ks) /\
  (forall x, (fst x = [] \/ fst x = [a]) -> snd x = Some a -> a <> 0 -> Forall playable l ->
     (forall b t, l = b :: t -> fst b <> a) -> (forall l1 b b' l2, l = l1 ++ b :: b' :: l2 -> fst b <> fst b') ->
     snd (fold_left key_after ks x) = last_opt (a :: map fst l)).
Proof.
  induction l as [|[p v] t IH]; intros a; cbn [legato].
  { exists []. split; [reflexivity|]. split; [constructor|]. intros x _ H _ _ _ _. exact H. }
  destruct (IH p) as (ks & E & K1 & K2). exists (KOn p v :: KOff a :: ks). split; [cbn [map key_op]; rewrite E; reflexivity|]. split.
  { intros Ha Hl. inversion Hl as [|? ? [Q1 Q2] Q3]; subst. cbn [fst snd] in *. constructor; [cbn; unfold seven; lia|]. constructor; [exact Ha|].
    apply K1; [unfold seven; lia|exact Q3]. }
  intros x Hst Hsn Ha Hl Hab Hd. inversion Hl as [|? ? [Q1 Q2] Q3]; subst. cbn [fst snd] in *.
  assert (Hpa : p <> a) by (apply (Hab (p, v) t eq_refl)). cbn [fold_left key_after].
  assert (X : m_release (m_press x p) a = ([], Some p)).
  { unfold m_press, m_release. destruct Hst as [Hst|Hst]; rewrite Hst; cbn [length Nat.eqb fst snd app filter].
    - destruct (Z.eqb_spec p a); [contradiction|]. reflexivity.
    - rewrite Z.eqb_refl. destruct (Z.eqb_spec p a); [contradiction|]. reflexivity. }
  rewrite X. rewrite K2; [|auto|reflexivity|lia|exact Q3| |].
  - cbn [map]. unfold last_opt. cbn [rev]. destruct (rev (map fst t)); reflexivity.
  - intros b t' ->. intros Hb. apply (Hd [] (p, v) b t' eq_refl). cbn [fst]. congruence.
  - intros l1 b b' l2 ->. apply (Hd ((p, v) :: l1) b b' l2 eq_refl).
Qed.
Theorem mono_legato s c a v l :
  mono_idle s c -> Forall playable ((a, v) :: l) -> (forall l1 b b' l2, (a, v) :: l = l1 ++ b :: b' :: l2 -> fst b <> fst b') ->
  exists s' o, midi_run (MNoteOn c a v :: legato c a l) s = WDone s' o /\
  sounds_only s' c (last_opt (a :: map fst l)).
Proof.
  intros Hs Hp Hd. destruct (legato_keys c l a) as (ks & E & K1 & K2).
  inversion Hp as [|? ? [Q1 Q2] Q3]; subst. cbn [fst snd] in *.
  destruct (mono_exact s c (KOn a v :: ks) Hs) as (s' & o & E1 & H).
  { constructor; [cbn; unfold seven; lia|]. apply K1; [unfold seven; lia|exact Q3]. }
  exists s', o. split; [cbn [map key_op] in E1; rewrite E; exact E1|]. cbn [fold_left key_after] in H.
  rewrite K2 in H; [exact H|right; reflexivity|reflexivity|lia|exact Q3| |].
  - intros b t ->. intros Hb. apply (Hd [] (a, v) b t eq_refl). cbn [fst]. congruence.
  - intros l1 b b' l2 ->. apply (Hd ((a, v) :: l1) b b' l2 eq_refl).
Qed.

(** Every channel below 13 is idle after start-up. *)
Lemma booted_idle c : 0 <= c < 13 -> mono_idle booted c.
Proof.
  intros Hc. unfold mono_idle. split; [exact booted_ok|]. split; [exact static_booted|]. split; [exact Hc|].
  assert (Hcc : is_chan c) by (unfold is_chan; lia).
  destruct (ok_ch_get _ _ booted_ok Hcc) as (m & Hm & _).
  split.
  - exists m. split; [exact Hm|].
    assert (X : forall k, In k (zseq 0 13) -> match zget (md_ch booted) k with
      Some m => m_porta m = false /\ keys (m_np m) = [] | None => True end).
    { intros k Hk. repeat (destruct Hk as [<-|Hk]; [vm_compute; auto|]). destruct Hk. }
    specialize (X c ltac:(apply in_zseq; lia)). unfold ch_at in Hm. rewrite Hm in X. exact X.
  - assert (X : forall k, In k (zseq 0 13) -> exists d, zget (md_dev booted) k = Some d /\ d_on d = false /\ d_glide d = 0).
    { intros k Hk. repeat (destruct Hk as [<-|Hk]; [vm_compute; eauto|]). destruct Hk. }
    apply X. apply in_zseq; lia.
Qed.

(** ** The same, against the expected key *)
Lemma held_presses c : forall l h, Forall playable l ->
  fold_left held_after (presses c l) h = rev (map (fun k => (c, fst k)) l) ++ h.
Proof.
  induction l as [|k t IH]; intros h Hl; [reflexivity|]. inversion Hl as [|? ? [Q1 Q2] Q3]; subst.
  cbn [presses map fold_left held_after rev]. fold (presses c t).
  destruct (Z.eqb_spec (snd k) 0); [lia|]. rewrite IH by exact Q3. rewrite <- app_assoc. reflexivity.
Qed.
Lemma held_releases c : forall r h,
  fold_left held_after (releases c r) h
  = filter (fun k => negb (existsb (fun x => (fst k =? c) && (snd k =? fst x)) r)) h.
Proof.
  induction r as [|x t IH]; intros h.
  - cbn. induction h as [|k h IH]; [reflexivity|]. cbn. f_equal. exact IH.
  - cbn [releases map fold_left held_after]. fold (releases c t). rewrite IH. clear IH.
    induction h as [|k h IH]; [reflexivity|]. cbn [filter existsb].
    destruct ((fst k =? c) && (snd k =? fst x)); cbn [negb orb filter]; [exact IH|].
    destruct (existsb _ t); cbn [negb]; [exact IH|f_equal; exact IH].
Qed.
Definition of_chan (c : Z) (h : list (Z * Z)) : list Z := map snd (filter (fun k => fst k =? c) h).
Lemma of_chan_own c l : of_chan c (map (fun p => (c, p)) l) = l.
Proof. induction l as [|p t IH]; [reflexivity|]. unfold of_chan in *. cbn. rewrite Z.eqb_refl. cbn. f_equal. exact IH. Qed.
Lemma filter_own c (f : Z -> bool) (g : Z * Z -> bool) l : (forall p, g (c, p) = f p) ->
  filter g (map (fun p => (c, p)) l) = map (fun p => (c, p)) (filter f l).
Proof. intros H. induction l as [|p t IH]; [reflexivity|]. cbn. rewrite H. destruct (f p); cbn; [f_equal|]; exact IH. Qed.
Lemma filter_rev {A} (f : A -> bool) l : filter f (rev l) = rev (filter f l).
Proof.
  induction l as [|x t IH]; [reflexivity|]. cbn [rev filter]. rewrite filter_app, IH. cbn [filter].
  destruct (f x); cbn [rev]; [reflexivity|apply app_nil_r].
Qed.
Lemma expected_after c l r : Forall playable l ->
  expected_key c (presses c l ++ releases c r)
  = last_opt (filter (fun p => negb (existsb (fun x => p =? fst x) r)) (map fst l)).
Proof.
  intros Hl. unfold expected_key, held. rewrite fold_left_app, held_presses, held_releases, app_nil_r by exact Hl.
  rewrite filter_rev, <- (map_map fst (fun p => (c, p))).
  rewrite (filter_own c (fun p => negb (existsb (fun x => p =? fst x) r))).
  - fold (of_chan c (rev (map (fun p => (c, p)) (filter (fun p => negb (existsb (fun x => p =? fst x) r)) (map fst l))))).
    rewrite <- map_rev, of_chan_own. reflexivity.
  - intros p. cbn [fst snd]. f_equal. rewrite Z.eqb_refl. reflexivity.
Qed.
Lemma expected_nested c pre suf : Forall playable (pre ++ suf) -> NoDup (map fst (pre ++ suf)) ->
  expected_key c (presses c (pre ++ suf) ++ releases c (rev suf)) = last_opt (map fst pre).
Proof.
  intros Hl Hn. rewrite expected_after by exact Hl. f_equal. rewrite map_app, filter_app.
  assert (E1 : filter (fun p => negb (existsb (fun x => p =? fst x) (rev suf))) (map fst suf) = []).
  { assert (K : forall l, (forall p, In p l -> In p (map fst suf)) ->
      filter (fun p => negb (existsb (fun x => p =? fst x) (rev suf))) l = []).
    { induction l as [|p t IH]; intros H; [reflexivity|]. cbn [filter].
      replace (existsb (fun x => p =? fst x) (rev suf)) with true.
      - cbn [negb]. apply IH. intros q Hq. apply H. right. exact Hq.
      - symmetry. apply existsb_exists. destruct (proj1 (in_map_iff _ _ _) (H p (or_introl eq_refl))) as (x & <- & Hx).
        exists x. split; [apply in_rev; rewrite rev_involutive; exact Hx|apply Z.eqb_refl]. }
    apply K. auto. }
  rewrite E1, app_nil_r. rewrite map_app in Hn. clear E1 Hl.
  induction pre as [|k t IH]; [reflexivity|]. cbn [map app filter] in *. inversion Hn as [|? ? N1 N2]; subst.
  replace (existsb (fun x => fst k =? fst x) (rev suf)) with false; [cbn [negb]; f_equal; apply IH, N2|].
  symmetry. destruct (existsb _ _) eqn:E; [|reflexivity]. exfalso. apply existsb_exists in E as (x & Hx & Hk).
  apply Z.eqb_eq in Hk. apply N1, in_or_app. right. rewrite Hk. apply in_map, in_rev, Hx.
Qed.
Lemma expected_one c l (k : Z * Z) : Forall playable l ->
  expected_key c (presses c l ++ [MNoteOff c (fst k)]) = last_opt (filter (fun q => negb (q =? fst k)) (map fst l)).
Proof.
  intros Hl. change [MNoteOff c (fst k)] with (releases c [k]). rewrite expected_after by exact Hl. f_equal.
  apply filter_ext. intros p. cbn [existsb]. rewrite orb_false_r. reflexivity.
Qed.
Lemma expected_legato c : forall l a, Forall playable l ->
  (forall b t, l = b :: t -> fst b <> a) -> (forall l1 b b' l2, l = l1 ++ b :: b' :: l2 -> fst b <> fst b') ->
  of_chan c (fold_left held_after (legato c a l) [(c, a)]) = [last (map fst l) a].
Proof.
  induction l as [|[p v] t IH]; intros a Hl Ha Hd; cbn [legato fold_left].
  - unfold of_chan. cbn. rewrite Z.eqb_refl. reflexivity.
  - inversion Hl as [|? ? [Q1 Q2] Q3]; subst. cbn [fst snd] in *. assert (Hpa : p <> a) by (apply (Ha (p, v) t eq_refl)).
    cbn [held_after]. destruct (Z.eqb_spec v 0); [lia|]. cbn [filter fst snd]. rewrite !Z.eqb_refl.
    destruct (Z.eqb_spec p a); [contradiction|]. cbn [andb negb]. rewrite (IH p Q3).
    + cbn [map fst]. destruct (map fst t) eqn:E; [reflexivity|]. f_equal. cbn [last].
      clear. revert z. induction l as [|y u IHl]; intros z; [reflexivity|]. cbn [last]. apply (IHl y).
    + intros b t' ->. intros Hb. apply (Hd [] (p, v) b t' eq_refl). cbn [fst]. congruence.
    + intros l1 b b' l2 ->. apply (Hd ((p, v) :: l1) b b' l2 eq_refl).
Qed.
Lemma last_opt_cons a l : last_opt (a :: l) = Some (last l a).
Proof.
  destruct l as [|x l] using rev_ind; [reflexivity|]. rewrite last_last, app_comm_cons, last_opt_snoc. reflexivity.
Qed.

Theorem mono_nested_expected s c pre suf :
  mono_idle s c -> Forall playable (pre ++ suf) -> NoDup (map fst (pre ++ suf)) -> (length (pre ++ suf) <= 10)%nat ->
  let ops := presses c (pre ++ suf) ++ releases c (rev suf) in
  exists s' o, midi_run ops s = WDone s' o /\ sounds_only s' c (expected_key c ops).
Proof.
  intros H1 H2 H3 H4 ops. destruct (mono_nested s c pre suf H1 H2 H3 H4) as (s' & o & E & H). exists s', o.
  split; [exact E|]. unfold ops. rewrite expected_nested by assumption. exact H.
Qed.
Theorem mono_one_release_expected s c l k :
  mono_idle s c -> Forall playable l -> NoDup (map fst l) -> (length l <= 10)%nat -> In k l ->
  let ops := presses c l ++ [MNoteOff c (fst k)] in
  exists s' o, midi_run ops s = WDone s' o /\ sounds_only s' c (expected_key c ops).
Proof.
  intros H1 H2 H3 H4 H5 ops. destruct (mono_one_release s c l k H1 H2 H3 H4 H5) as (s' & o & E & H). exists s', o.
  split; [exact E|]. unfold ops. rewrite expected_one by assumption. exact H.
Qed.
Theorem mono_legato_expected s c a v l :
  mono_idle s c -> Forall playable ((a, v) :: l) -> (forall l1 b b' l2, (a, v) :: l = l1 ++ b :: b' :: l2 -> fst b <> fst b') ->
  let ops := MNoteOn c a v :: legato c a l in
  exists s' o, midi_run ops s = WDone s' o /\ sounds_only s' c (expected_key c ops).
Proof.
  intros H1 H2 H3 ops. destruct (mono_legato s c a v l H1 H2 H3) as (s' & o & E & H). exists s', o.
  split; [exact E|]. unfold ops, expected_key, held. cbn [fold_left held_after].
  inversion H2 as [|? ? [Q1 Q2] Q3]; subst. cbn [fst snd] in *. destruct (Z.eqb_spec v 0); [lia|].
  match goal with |- context [map snd (filter ?f ?h)] => change (map snd (filter f h)) with (of_chan c h) end.
  rewrite expected_legato; [|exact Q3| |].
  - rewrite last_opt_cons in H. exact H.
  - intros b t ->. intros Hb. apply (H3 [] (a, v) b t eq_refl). cbn [fst]. congruence.
  - intros l1 b b' l2 ->. apply (H3 ((a, v) :: l1) b b' l2 eq_refl).
Qed.
