(** The sample voice, the keys a channel remembers, and where a note starts. *)
From Verif Require Import Base BaseLemmas PitchModel NotePriorityModel NotePriorityProofs SynthModel.
From Verif Require Import MidiModel MidiSpec MidiProofs MidiOkProofs MidiEqProofs MidiEffectProofs MidiNoteProofs MidiHistProofs MidiMapProofs MidiStaticProofs MidiDevProofs MidiInvProofs.

Lemma because_some (P : mop -> Prop) op : because P (Some op) -> P op.
Proof. intros (m & [= <-] & H). exact H. Qed.
(** ** No sample voice unless controller 78 asked for it *)
Lemma no_dac_step op s s' o : ~ is_cc 78 op -> mop_ok op -> midi_ok s -> steps s op s' o ->
  (forall j d, dev_at s j d -> no_dac d) -> forall j d, dev_at s' j d -> no_dac d.
Proof.
  intros N Ho Hs E H.
  refine (moves_inv (fun (t : unit) _ => t) (Some op) (fun _ => True) (fun l _ => forall j d, zget l j = Some d -> no_dac d) _ _ _ _ _ (step_moves op s s' o Ho Hs E) _ tt H).
  - clear -N. intros l t j d cs d' Hi Hj A _ i x Hx. destruct (Z.eq_dec i j) as [->|Nk]; [|rewrite zget_zset_other in Hx by auto; exact (Hi i x Hx)].
    rewrite zget_zset_same in Hx by exact (zget_Some _ _ _ Hj). injection Hx as <-.
    apply (atom_no_dac _ _ _ _ _ (fun B => N (because_some _ _ B)) A (Hi j d Hj)).
  - intros l t c _ _ Hi. exact Hi.
  - apply Forall_forall. intros; exact Logic.I.
Qed.
Theorem no_dac_boot ops s o : boots_to ops s o -> Forall (fun m => ~ is_cc 78 m) ops -> forall j d, dev_at s j d -> no_dac d.
Proof.
  intros B F. refine (boots_ind (fun ops s cs => Forall (fun m => ~ is_cc 78 m) ops -> forall j d, dev_at s j d -> no_dac d) _ _ ops s o B F).
  - intros _ j d Hd. assert (X : Forall no_dac (md_dev booted)) by (repeat (constructor; [discriminate|]); constructor).
    exact (Forall_zget _ _ _ _ X Hd).
  - clear. intros ops op s cs s' o B Hs IH Ho E F. apply Forall_app in F as [F1 F2]. apply Forall_inv in F2.
    eapply no_dac_step; [exact F2|exact Ho|exact Hs|exact E|exact (IH F1)].
Qed.

(** ** A channel remembers no more keys than are held *)
Inductive sublist : list Z -> list Z -> Prop :=
| sub_nil l : sublist [] l
| sub_skip a x l : sublist a l -> sublist a (x :: l)
| sub_take x a l : sublist a l -> sublist (x :: a) (x :: l).
Lemma sublist_length a l : sublist a l -> (length a <= length l)%nat.
Proof. induction 1; cbn; lia. Qed.
Lemma sublist_filter f a l : sublist a l -> sublist (filter f a) (filter f l).
Proof. induction 1; cbn; [constructor|destruct (f x); [constructor|]; assumption|destruct (f x); [constructor|]; assumption]. Qed.
Lemma sublist_tl a l : sublist a l -> sublist (tl a) l.
Proof. induction 1; cbn; [constructor|constructor; assumption|constructor; assumption]. Qed.
Lemma filter_rev' {A} (f : A -> bool) l : filter f (rev l) = rev (filter f l).
Proof. induction l as [|x t IH]; [reflexivity|]. cbn. rewrite filter_app, IH. cbn. destruct (f x); cbn; [reflexivity|apply app_nil_r]. Qed.
Lemma rev_removelast {A} (l : list A) : rev (removelast l) = tl (rev l).
Proof.
  destruct l as [|x t] using rev_ind; [reflexivity|]. rewrite removelast_last, rev_app_distr. reflexivity.
Qed.
Definition held_on (c : Z) (h : list (Z * Z)) : list Z := map snd (filter (fun k => fst k =? c) h).
Lemma held_on_drop c p h : held_on c (filter (fun k => negb ((fst k =? c) && (snd k =? p))) h) = filter (fun k => negb (k =? p)) (held_on c h).
Proof.
  unfold held_on. induction h as [|[a b] t IH]; [reflexivity|]. cbn [filter fst snd].
  destruct (Z.eqb_spec a c) as [->|N]; cbn [andb negb].
  - destruct (Z.eqb_spec b p) as [->|M]; cbn [negb filter fst snd map].
    + rewrite Z.eqb_refl. cbn [negb]. exact IH.
    + rewrite Z.eqb_refl. cbn [map snd filter]. destruct (Z.eqb_spec b p); [contradiction|]. cbn [negb]. f_equal. exact IH.
  - cbn [filter fst]. destruct (Z.eqb_spec a c); [contradiction|]. exact IH.
Qed.
Lemma held_on_other b c p h : b <> c -> held_on b (filter (fun k => negb ((fst k =? c) && (snd k =? p))) h) = held_on b h.
Proof.
  intros N. unfold held_on. induction h as [|[x y] t IH]; [reflexivity|]. cbn [filter fst snd].
  destruct (Z.eqb_spec x c) as [->|M]; cbn [andb negb].
  - destruct (Z.eqb_spec c b); [congruence|]. destruct (y =? p); cbn [negb filter fst]; [exact IH|]. destruct (Z.eqb_spec c b); [congruence|exact IH].
  - cbn [filter fst]. destruct (x =? b); cbn [map]; [f_equal|]; exact IH.
Qed.
Definition stack_inv (h : list (Z * Z)) (s : midi) : Prop := forall c m, ch_at s c m -> sublist (rev (keys (m_np m))) (held_on c h).
Lemma stack_off h s c p s' o : midi_ok s -> is_chan c -> stack_inv h s -> midi_note_off c p s = WDone s' o ->
  stack_inv (filter (fun k => negb ((fst k =? c) && (snd k =? p))) h) s'.
Proof.
  intros Hs Hc H E. destruct (ok_ch_get _ _ Hs Hc) as (m & Hm & _).
  destruct (note_off_effect _ _ _ _ _ m Hs Hc Hm E) as (_ & _ & st & _ & Ek & ->).
  intros b m' Hm'. unfold ch_at in Hm'. cbn [md_ch md_set_dev md_set_ch] in Hm'. destruct (Z.eq_dec b c) as [->|Hb].
  - rewrite zget_zset_same in Hm' by (eapply zget_Some; exact Hm). injection Hm' as <-. cbn [m_np m_set_np]. rewrite Ek, held_on_drop.
    assert (X : sublist (rev (off_stack m p)) (filter (fun k => negb (k =? p)) (held_on c h))).
    { unfold off_stack. rewrite <- filter_rev'. apply sublist_filter, H, Hm. }
    unfold note_off_keys. destruct (_ && _ && _); [exact X|]. rewrite rev_removelast. apply sublist_tl, X.
  - rewrite zget_zset_other in Hm' by congruence. rewrite held_on_other by exact Hb. exact (H b m' Hm').
Qed.
Lemma stack_on h s c p v s' o : midi_ok s -> is_chan c -> seven p -> v <> 0 -> stack_inv h s -> midi_note_on c p v s = WDone s' o ->
  stack_inv ((c, p) :: h) s'.
Proof.
  intros Hs Hc Hp Hv H E. destruct (ok_ch_get _ _ Hs Hc) as (m & Hm & _).
  destruct (midi_note_on_eq c p v s m Hs Hc Hp Hv Hm) as (s1 & o1 & E1 & R). rewrite E in E1. injection E1 as <- <-.
  assert (K : forall b m', ch_at s b m' -> sublist (rev (keys (m_np m'))) (held_on b ((c, p) :: h))).
  { intros b m' Hb. unfold held_on. cbn [filter fst]. destruct (c =? b); [apply sub_skip|]; exact (H b m' Hb). }
  assert (KN : forall st, keys st = keys (m_np m) ++ [p] -> forall b m',
     zget (zset (md_ch s) c (m_set_vel (m_set_np m st) v)) b = Some m' -> sublist (rev (keys (m_np m'))) (held_on b ((c, p) :: h))).
  { intros st Ek b m' Hb. destruct (Z.eq_dec b c) as [->|N].
    - rewrite zget_zset_same in Hb by (eapply zget_Some; exact Hm). injection Hb as <-. cbn [m_np m_set_vel m_set_np]. rewrite Ek, rev_app_distr.
      unfold held_on. cbn [filter fst rev app map snd]. rewrite Z.eqb_refl. cbn [map snd]. apply sub_take. exact (H c m Hm).
    - rewrite zget_zset_other in Hb by congruence. exact (K b m' Hb). }
  destruct R as [|i d st _ _ _ _ _ Ek _ _|i d st _ _ _ _ _ Ek _|i d _ _ _ _]; [exact K|exact (KN st Ek)|exact (KN st Ek)|exact K].
Qed.
Lemma stack_step op h s s' o : mop_ok op -> midi_ok s -> stack_inv h s -> steps s op s' o -> stack_inv (held_after h op) s'.
Proof.
  intros Hop Hs H E.
  destruct (match op with MNoteOn _ _ _ | MNoteOff _ _ => true | _ => false end) eqn:Eop.
  - destruct op; try discriminate; cbn [held_after]; unfold steps in E; cbn [midi_step mop_ok] in *.
    + destruct (Z.eqb_spec v 0) as [->|Hv].
      * apply (stack_off h s c p s' o); tauto.
      * apply (stack_on h s c p v s' o); tauto.
    + apply (stack_off h s c p s' o); tauto.
  - assert (Hh : held_after h op = h) by (destruct op; discriminate || reflexivity). rewrite Hh.
    destruct (other_step op s s' o Hs Hop ltac:(destruct op; discriminate || exact Logic.I) E) as [_ FC].
    intros c m' Hm'. destruct (FC c m' Hm') as (m & Hm & [[F|F] _]); rewrite F; [exact (H c m Hm)|constructor].
Qed.
Theorem held_stack ops s o : boots_to ops s o -> forall c m, ch_at s c m -> (length (keys (m_np m)) <= length (held_on c (held ops)))%nat.
Proof.
  intros B c m Hm.
  assert (X : stack_inv (held ops) s).
  { apply (boot_induction held_after [] (fun _ => True) stack_inv) with (o := o); [| |apply Forall_forall; intros; exact Logic.I|exact B].
    - intros b x Hx. destruct (booted_ch _ _ Hx) as (-> & _). constructor.
    - intros op h s0 s' o' _ H2 H3 H4 H5 _. apply (stack_step op h s0 s' o'); assumption. }
  assert (L := sublist_length _ _ (X c m Hm)). rewrite rev_length in L. exact L.
Qed.

(** ** Static mapping: a note starts on the device channel of its MIDI channel *)
Lemma static_starts s c p v s' o m d : midi_ok s -> is_chan c -> seven p -> v <> 0 -> static_map s -> dev_at s c d -> ch_at s c m ->
  (length (keys (m_np m)) < 10)%nat -> m_porta m = false -> steps s (MNoteOn c p v) s' o ->
  exists st, o = start_calls (m_set_vel (m_set_np m st) v) c p v (d_set_glide d 0).
Proof.
  intros Hs Hc Hp Hv Hst Hd Hm Hk Hpo E. unfold steps in E; cbn [midi_step] in E.
  assert (Hc13 : 0 <= c < 13) by (destruct (ok_dev _ _ _ Hs Hd); assumption).
  destruct (midi_note_on_eq c p v s m Hs Hc Hp Hv Hm) as (s1 & o1 & E2 & R). rewrite E in E2. injection E2 as <- <-.
  destruct R as [[Ht|[Ht|[_ Ht]]]|i e st Ht Ci He _ _ _ Hpo' _|i e st Ht Ci He _ _ Ek _|i e Ht Ci He Hvc].
  - exfalso. unfold tooManyPercussiveNotes in Ht. destruct (negb _); [discriminate|]. rewrite perc_loop_count in Ht by lia.
    assert (N : (length (filter perc (md_dev s)) <= 1)%nat).
    { apply (filter_one _ _ 9). intros j x Hx Hpx. apply andb_prop in Hpx as [Hpx _]. destruct Hst as [_ H2].
      rewrite <- (H2 j x Hx). lia. }
    apply Z.leb_le in Ht. lia.
  - exfalso. unfold chosen in Ht. destruct (device_min_max (m_sel m)) as [lo hi]. destruct Hst as [H1 H2]. rewrite H1 in Ht.
    destruct (first_dev _ _ _) in Ht; [discriminate|]. cbn [orelse] in Ht. unfold by_midi in Ht.
    assert (X := first_dev_none _ _ _ _ c d Ht ltac:(lia) Hd). cbv beta in X. rewrite (H2 c d Hd) in X. lia.
  - lia.
  - congruence.
  - destruct (static_chosen s m c i e Hst Ci He) as [-> Hmi]. unfold dev_at in Hd. rewrite Hd in He. injection He as <-. eexists; reflexivity.
  - exfalso. apply Hvc. apply static_single; assumption.
Qed.
