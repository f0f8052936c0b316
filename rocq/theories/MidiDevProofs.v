(** Every message, seen from the device channels: a sequence of small moves, each
    changing at most one device channel and making at most one call, addressed to
    that device channel's own sound channel. *)
From Verif Require Import Base BaseLemmas PitchModel PitchProofs NotePriorityModel NotePriorityProofs SynthModel.
From Verif Require Import MidiModel MidiSpec MidiProofs MidiOkProofs MidiEqProofs MidiEffectProofs MidiNoteProofs MidiHistProofs MidiMapProofs.

(** [None] is power-on. *)
Definition cause := option mop.
Definition because (P : mop -> Prop) (op : cause) : Prop := exists m, op = Some m /\ P m.
(** Key releases. *)
Definition off_msg (m : mop) : Prop := (exists c p, m = MNoteOn c p 0) \/ (exists c p, m = MNoteOff c p).
(** When a device channel may be initialised. *)
Definition may_init (op : cause) (d : dev) : Prop :=
  op = None \/ because (is_cc 121) op \/ op = Some MReset \/
  because gm_reset_msg op /\ (d_on d = false \/ ~ is_chan (d_midi d)).

(** Pressing a key: a device channel coming back from percussion gets its program
    again. *)
Definition back (c : Z) (d : dev) : bool := (d_midi d =? 9) && negb (c =? 9).
Definition press_calls (c x : Z) (d : dev) : list dcall :=
  (if back c d then [DProgram (d_ops d) (d_num d) x] else []) ++ [DPerc (d_num d) (c =? 9)].
Definition pressed (c p x : Z) (d : dev) : dev := prepared c p (if back c d then d_set_prog d x else d).
(** When a silent device channel may be given another MIDI channel. *)
Definition may_assign (op : cause) : Prop := op = None \/ op = Some MReset \/ because gm_reset_msg op.

Inductive datom (op : cause) (i : Z) : dev -> list dcall -> dev -> Prop :=
| a_vol d x : datom op i d [DVolume (d_ops d) (d_num d) x] (d_set_vol d x)
| a_pan d x : datom op i d [DPan (d_ops d) (d_num d) x] (d_set_pan d x)
| a_prog d x : datom op i d [DProgram (d_ops d) (d_num d) x] (d_set_prog d x)
| a_bend d x p ce : datom op i d [DPitch (d_ops d) (d_num d) p ce] (d_set_bend d x)
| a_tune d p ce x y z : datom op i d [DPitch (d_ops d) (d_num d) p ce] (d_set_glide (d_set_cents (d_set_pitch d x) y) z)
| a_press d c p v x : op = Some (MNoteOn c p v) -> v <> 0 -> d_midi d = c \/ d_on d = false ->
    (c = 9 -> d_ops d = VPsg -> d_midi d = 9) -> (10 <= i -> d_midi d = c) ->
    datom op i d (press_calls c x d) (pressed c p x d)
| a_play d p ce v : (exists k, op = Some (MNoteOn (d_midi d) k v) /\ v <> 0) -> d_on d = true ->
    datom op i d [DNoteOn (d_ops d) (d_num d) p ce v] d
| a_replay d p ce v : because off_msg op -> d_on d = true -> datom op i d [DNoteOn (d_ops d) (d_num d) p ce v] d
| a_again d p : because off_msg op -> d_on d = true -> datom op i d [] (d_set_pitch (d_set_cents d 0) p)
| a_off d p : because off_msg op -> datom op i d [DNoteOff (d_ops d) (d_num d) p] (off_dev d)
| a_all_off d : datom op i d [DAllOff (d_ops d) (d_num d)] (off_dev d)
| a_glide d x : datom op i d [] (d_set_glide d x)
| a_midi d x : d_on d = false /\ may_assign op \/ because remapping op -> datom op i d [] (d_set_midi d x)
| a_init d : may_init op d -> datom op i d [DPerc (d_num (fresh_dev i d)) (i =? 9)] (fresh_dev i d)
| a_dac d (b : bool) : i = 5 -> because (is_cc 78) op -> datom op i d [] (d_set_ops d (if b then VDac else VFm)).

Lemma a_tuned op i d p ce : datom op i d [DPitch (d_ops d) (d_num d) p ce] d.
Proof. assert (H := a_bend op i d (d_bend d) p ce). rewrite set_same_bend in H. exact H. Qed.

(** A device channel's moves. *)
Inductive path (op : cause) (i : Z) : dev -> list dcall -> dev -> Prop :=
| p_stay d : path op i d [] d
| p_move d cs d1 cs' d2 : datom op i d cs d1 -> path op i d1 cs' d2 -> path op i d (cs ++ cs') d2.

Lemma path_app op i d cs d1 cs' d2 : path op i d cs d1 -> path op i d1 cs' d2 -> path op i d (cs ++ cs') d2.
Proof.
  intros H. revert cs' d2. induction H as [d|d a d1 b d' A P IH]; intros cs' d2 H2; [exact H2|].
  rewrite <- app_assoc. eapply p_move; [exact A|]. apply IH, H2.
Qed.
Lemma path_one op i d cs d' : datom op i d cs d' -> path op i d cs d'.
Proof. intros H. rewrite <- (app_nil_r cs). eapply p_move; [exact H|apply p_stay]. Qed.

(** Calls that address no sound channel and set no percussion flag. *)
Definition plain_call (c : dcall) : Prop := call_voice c = None /\ forall n b, c <> DPerc n b.

(** Moves of the device channels [k], [k + 1], ... *)
Inductive moves (op : cause) (k : Z) : list dev -> list dcall -> list dev -> Prop :=
| m_stay l : moves op k l [] l
| m_dev l j d cs d' cs' l' : zget l j = Some d -> datom op (k + j) d cs d' -> moves op k (zset l j d') cs' l' ->
    moves op k l (cs ++ cs') l'
| m_plain l c cs l' : plain_call c -> moves op k l cs l' -> moves op k l (c :: cs) l'.

Lemma moves_app op k l cs l1 cs' l2 : moves op k l cs l1 -> moves op k l1 cs' l2 -> moves op k l (cs ++ cs') l2.
Proof.
  intros H. revert cs' l2. induction H as [l|l j d a d' b l' E A M IH|l c a l' P M IH]; intros cs' l2 H2; [exact H2| |].
  - rewrite <- app_assoc. eapply m_dev; [exact E|exact A|]. apply IH, H2.
  - cbn [app]. apply m_plain; [exact P|]. apply IH, H2.
Qed.
Lemma moves_path op k l j d cs d' : path op (k + j) d cs d' -> zget l j = Some d -> moves op k l cs (zset l j d').
Proof.
  intros H. remember (k + j) as i eqn:Ei. revert l. induction H as [d|d a d1 b d2 A P IH]; intros l Hd.
  - replace (zset l j d) with l; [apply m_stay|]. symmetry. apply zset_id. exact Hd.
  - subst i. eapply m_dev; [exact Hd|exact A|].
    assert (R := zget_Some _ _ _ Hd).
    replace (zset l j d2) with (zset (zset l j d1) j d2) by apply zset_zset.
    apply IH. apply zget_zset_same. exact R.
Qed.
Lemma zset_cons_head {A} (x y : A) l : zset (x :: l) 0 y = y :: l.
Proof. reflexivity. Qed.
Lemma zset_cons_tail {A} (x y : A) l j : 0 < j -> zset (x :: l) j y = x :: zset l (j - 1) y.
Proof.
  intros H. unfold zset. replace (j <? 0) with false by lia. replace (j - 1 <? 0) with false by lia.
  replace (Z.to_nat j) with (S (Z.to_nat (j - 1))) by lia. reflexivity.
Qed.
Lemma moves_tail op k d l cs l' : moves op (k + 1) l cs l' -> moves op k (d :: l) cs (d :: l').
Proof.
  intros H. remember (k + 1) as k1 eqn:Ek. induction H as [l|l j x a d' b l' E A M IH|l c a l' P M IH].
  - apply m_stay.
  - assert (R := zget_Some _ _ _ E). subst k1.
    eapply (m_dev op k (d :: l) (j + 1) x).
    + rewrite zget_cons. replace (j + 1 =? 0) with false by lia. replace (j + 1 - 1) with j by lia. exact E.
    + replace (k + (j + 1)) with (k + 1 + j) by lia. exact A.
    + rewrite zset_cons_tail by lia. replace (j + 1 - 1) with j by lia. exact IH.
  - apply m_plain; auto.
Qed.
Lemma moves_cons op k d c d' l cs l' :
  path op k d c d' -> moves op (k + 1) l cs l' -> moves op k (d :: l) (c ++ cs) (d' :: l').
Proof.
  intros P M. apply moves_app with (d' :: l).
  - rewrite <- (zset_cons_head d d' l). apply (moves_path op k (d :: l) 0 d); [rewrite Z.add_0_r; exact P|reflexivity].
  - apply moves_tail, M.
Qed.
Lemma moves_map op g h l : forall k,
  (forall j d, zget l j = Some d -> path op (k + j) d (h d) (g d)) -> moves op k l (flat_map h l) (map g l).
Proof.
  induction l as [|d t IH]; intros k H; cbn [flat_map map]; [apply m_stay|].
  apply moves_cons.
  - rewrite <- (Z.add_0_r k). apply H. reflexivity.
  - apply IH. intros j x Hx. replace (k + 1 + j) with (k + (j + 1)) by lia. apply H.
    assert (R := zget_Some _ _ _ Hx). rewrite zget_cons. replace (j + 1 =? 0) with false by lia. replace (j + 1 - 1) with j by lia. exact Hx.
Qed.
Lemma moves_silent op : forall l l' k, length l' = length l ->
  (forall j d d', zget l j = Some d -> zget l' j = Some d' -> path op (k + j) d [] d') -> moves op k l [] l'.
Proof.
  induction l as [|d t IH]; intros [|d' t'] k L H; try discriminate; [apply m_stay|].
  apply (moves_cons op k d [] d' t [] t').
  - rewrite <- (Z.add_0_r k). apply H; reflexivity.
  - apply IH; [injection L as L; exact L|]. intros j x x' Hx Hx'. replace (k + 1 + j) with (k + (j + 1)) by lia.
    assert (R := zget_Some _ _ _ Hx).
    apply H; rewrite zget_cons; replace (j + 1 =? 0) with false by lia; replace (j + 1 - 1) with j by lia; assumption.
Qed.
Lemma moves_plain op k l cs : Forall plain_call cs -> moves op k l cs l.
Proof. induction 1; [apply m_stay|apply m_plain; assumption]. Qed.

(** Synchronising a device channel with its MIDI channel, after the percussion flag. *)
Definition sync_levels (m : mchan) (d : dev) : list dcall :=
  (if d_vol d =? m_vol m then [] else [DVolume (d_ops d) (d_num d) (m_vol m)])
  ++ (if d_pan d =? m_pan m then [] else [DPan (d_ops d) (d_num d) (m_pan m)])
  ++ (if d_prog d =? m_prog m then [] else [DProgram (d_ops d) (d_num d) (m_prog m)])
  ++ (if d_bend d =? m_bend m then []
      else [DPitch (d_ops d) (d_num d) (pc_pitch (eff m (synced m d))) (pc_cents (eff m (synced m d)))]).
Lemma sync_split m d : sync_calls m d = [DPerc (d_num d) (d_midi d =? 9)] ++ sync_levels m d.
Proof. reflexivity. Qed.
Lemma path_levels op i m d : path op i d (sync_levels m d) (synced m d).
Proof.
  unfold sync_levels.
  apply path_app with (d_set_vol d (m_vol m)).
  { destruct (Z.eqb_spec (d_vol d) (m_vol m)) as [E|E].
    - rewrite <- E, set_same_vol. apply p_stay.
    - apply path_one, a_vol. }
  apply path_app with (d_set_pan (d_set_vol d (m_vol m)) (m_pan m)).
  { destruct (Z.eqb_spec (d_pan d) (m_pan m)) as [E|E].
    - rewrite <- E. change (d_pan d) with (d_pan (d_set_vol d (m_vol m))). rewrite set_same_pan. apply p_stay.
    - apply path_one, (a_pan op i (d_set_vol d (m_vol m))). }
  apply path_app with (d_set_prog (d_set_pan (d_set_vol d (m_vol m)) (m_pan m)) (m_prog m)).
  { destruct (Z.eqb_spec (d_prog d) (m_prog m)) as [E|E].
    - rewrite <- E. change (d_prog d) with (d_prog (d_set_pan (d_set_vol d (m_vol m)) (m_pan m))). rewrite set_same_prog. apply p_stay.
    - apply path_one, (a_prog op i (d_set_pan (d_set_vol d (m_vol m)) (m_pan m))). }
  change (synced m d) with (d_set_bend (d_set_prog (d_set_pan (d_set_vol d (m_vol m)) (m_pan m)) (m_prog m)) (m_bend m)).
  destruct (Z.eqb_spec (d_bend d) (m_bend m)) as [E|E].
  - rewrite <- E. change (d_bend d) with (d_bend (d_set_prog (d_set_pan (d_set_vol d (m_vol m)) (m_pan m)) (m_prog m))).
    rewrite set_same_bend. apply p_stay.
  - apply path_one. apply (a_bend op i (d_set_prog (d_set_pan (d_set_vol d (m_vol m)) (m_pan m)) (m_prog m))).
Qed.
(** Only the channel's own device channels are searched beyond the first ten. *)
Lemma chosen_high s m c i d : chosen s m c = Some i -> dev_at s i d -> 10 <= i -> d_midi d = c.
Proof.
  unfold chosen, dev_at.
  assert (Hr : snd (device_min_max (m_sel m)) <= 9) by (unfold device_min_max; do 3 (destruct (_ =? _); [cbn; lia|]); cbn; lia).
  destruct (device_min_max (m_sel m)) as [lo hi]. cbn [snd] in Hr. intros H Hd Hi.
  assert (HF : forall p a b, b <= 9 -> first_dev (md_dev s) p (upto a b) = Some i -> False).
  { intros p a b Hb H1. apply first_dev_some in H1 as (H1 & _). lia. }
  assert (HS : forall a b, b <= 9 -> search_dev (md_dev s) c a b = Some i -> False).
  { intros a b Hb H1. apply search_some in H1 as (_ & _ & _ & H1). lia. }
  apply orelse_some in H as [H|H]; [exfalso; apply HF in H; auto|].
  destruct (md_dyn s).
  - exfalso. apply orelse_some in H as [H|H].
    { unfold square_dev in H. destruct (_ || _); [apply HF in H; [auto|lia]|discriminate]. }
    apply orelse_some in H as [H|H]; [|apply HF in H; [auto|lia]].
    unfold specific_dev in H. destruct (md_stick s); [|apply HS in H; auto].
    destruct (by_midi _ _) as [x|]; [|discriminate]. destruct (zget _ x); [|discriminate].
    destruct (vt_eqb _ _); apply HS in H; auto; lia.
  - unfold by_midi in H. apply first_dev_some in H as (_ & e & He & Hp). rewrite Hd in He. injection He as <-. lia.
Qed.
Lemma path_start c p v i m d : v <> 0 -> d_midi d = c \/ d_on d = false -> (c = 9 -> d_ops d = VPsg -> d_midi d = 9) ->
  (10 <= i -> d_midi d = c) ->
  path (Some (MNoteOn c p v)) i d (start_calls m c p v d) (started m c p d).
Proof.
  intros Hv Hd Hq Hh. unfold start_calls. rewrite sync_split. cbn [d_num prepared d_set_pitch d_set_cents d_set_on d_set_midi d_midi].
  set (d1 := if (d_midi d =? 9) && negb (c =? 9) then d_set_prog d (m_prog m) else d).
  assert (E5 : started m c p d1 = started m c p d) by (unfold d1; destruct (_ && _); auto).
  rewrite <- app_assoc, app_assoc. apply path_app with (prepared c p d1).
  { apply path_one. apply (a_press _ i d c p v (m_prog m)); auto. }
  apply path_app with (started m c p d).
  2:{ apply path_one. apply (a_play _ i (started m c p d) _ _ v); [exists p; split; [reflexivity|exact Hv]|reflexivity]. }
  (* the levels sent are those of the device channel before the program was applied again *)
  rewrite <- E5.
  destruct ((d_midi d =? 9) && negb (c =? 9)) eqn:Eb; unfold d1 in *; [|apply path_levels].
  unfold sync_levels. cbn [d_vol d_pan d_prog d_bend d_num d_ops prepared d_set_pitch d_set_cents d_set_on d_set_midi].
  set (e := prepared c p (d_set_prog d (m_prog m))).
  apply path_app with (d_set_vol e (m_vol m)).
  { destruct (Z.eqb_spec (d_vol d) (m_vol m)) as [E|E].
    - rewrite <- E. change (d_vol d) with (d_vol e). rewrite set_same_vol. apply p_stay.
    - apply path_one, (a_vol _ i e). }
  apply path_app with (d_set_pan (d_set_vol e (m_vol m)) (m_pan m)).
  { destruct (Z.eqb_spec (d_pan d) (m_pan m)) as [E|E].
    - rewrite <- E. change (d_pan d) with (d_pan (d_set_vol e (m_vol m))). rewrite set_same_pan. apply p_stay.
    - apply path_one, (a_pan _ i (d_set_vol e (m_vol m))). }
  apply path_app with (d_set_prog (d_set_pan (d_set_vol e (m_vol m)) (m_pan m)) (m_prog m)).
  { destruct (Z.eqb_spec (d_prog d) (m_prog m)) as [E|E].
    - apply p_stay.
    - apply path_one, (a_prog _ i (d_set_pan (d_set_vol e (m_vol m)) (m_pan m))). }
  change (started m c p (d_set_prog d (m_prog m))) with (d_set_bend (d_set_prog (d_set_pan (d_set_vol e (m_vol m)) (m_pan m)) (m_prog m)) (m_bend m)).
  destruct (Z.eqb_spec (d_bend d) (m_bend m)) as [E|E].
  - rewrite <- E. change (d_bend d) with (d_bend (d_set_prog (d_set_pan (d_set_vol e (m_vol m)) (m_pan m)) (m_prog m))).
    rewrite set_same_bend. apply p_stay.
  - apply path_one. apply (a_bend _ i (d_set_prog (d_set_pan (d_set_vol e (m_vol m)) (m_pan m)) (m_prog m))).
Qed.
Lemma glide_same z d : d_set_glide (d_set_cents (d_set_pitch d (d_pitch z)) (d_cents z)) (d_glide d) = d_set_cents (d_set_pitch d (d_pitch z)) (d_cents z).
Proof. destruct d; reflexivity. Qed.
Lemma path_glide op i m d : path op i d (glide_calls m d) (glide_dev (m_int m) d).
Proof.
  unfold glide_calls, glide_dev. destruct (_ || _); [apply p_stay|]. cbv zeta. apply path_one. destruct (_ || _).
  - apply (a_tune op i d).
  - set (x := pc_shift _ _). set (y := d_set_cents (d_set_pitch d (pc_pitch x)) (pc_cents x)).
    replace y with (d_set_glide (d_set_cents (d_set_pitch d (pc_pitch x)) (pc_cents x)) (d_glide d)) at 5 by (destruct d; reflexivity).
    apply (a_tune op i d).
Qed.
Lemma path_tick op i chs d : path op i d (tick_calls chs d) (tick_dev chs d).
Proof.
  unfold tick_calls, tick_dev. destruct (zget _ _); [|apply p_stay]. destruct (_ && _ && _); [apply path_glide|apply p_stay].
Qed.
Lemma path_init op i m d : may_init op d -> path op i d (sync_calls m (fresh_dev i d)) (synced m (fresh_dev i d)).
Proof.
  intros H. rewrite sync_split. apply path_app with (fresh_dev i d); [apply path_one, a_init, H|apply path_levels].
Qed.
Lemma moves_init op chs sel : forall l k,
  (forall j d, zget l j = Some d -> sel d = true -> may_init op d) ->
  moves op k l (init_calls chs sel k l) (mapi (init_dev chs sel) k l).
Proof.
  induction l as [|d t IH]; intros k H; cbn [init_calls mapi]; [apply m_stay|]. apply moves_cons.
  - unfold init_dev. destruct (sel d) eqn:E; [|apply p_stay]. apply path_init. apply (H 0); [reflexivity|exact E].
  - apply IH. intros j x Hx. apply (H (j + 1)). assert (R := zget_Some _ _ _ Hx).
    rewrite zget_cons. replace (j + 1 =? 0) with false by lia. replace (j + 1 - 1) with j by lia. exact Hx.
Qed.
Lemma moves_assign op dyn l :
  (forall j d, zget l j = Some d -> d_on d = false) /\ may_assign op \/ because remapping op -> moves op 0 l [] (assign_modes dyn 0 l).
Proof.
  intros H. apply moves_silent; [apply assign_length|]. intros j d d' Hd. rewrite zget_assign, Hd. intros [= <-].
  apply path_one, a_midi. destruct H as [[H H']|H]; [left; split; [apply (H j d Hd)|exact H']|right; exact H].
Qed.
Lemma init_all_off chs l j d : zget (mapi (init_dev chs (fun _ => true)) 0 l) j = Some d -> d_on d = false.
Proof. rewrite zget_mapi. destruct (zget l j); [|discriminate]. intros [= <-]. reflexivity. Qed.

Lemma moves_off op c l :
  moves op 0 l (flat_map (calls_at c (fun d => [DAllOff (d_ops d) (d_num d)])) l)
    (map (at_chan c (fun d => d_set_pitch (d_set_on d false) 0)) l).
Proof.
  apply moves_map. intros j d _. unfold calls_at, at_chan. destruct (_ =? _); [apply path_one, a_all_off|apply p_stay].
Qed.
Lemma moves_channels_off op is : forall s s' o, all_channels_off is s = WDone s' o ->
  moves op 0 (md_dev s) o (md_dev s').
Proof.
  induction is as [|c t IH]; intros s s' o; cbn [all_channels_off].
  - intros [= <- <-]. apply m_stay.
  - intros H. apply wbind_inv in H as (s1 & o1 & o2 & H1 & H2 & ->). rewrite all_notes_off_eq in H1. injection H1 as <- <-.
    eapply moves_app; [|eapply IH; exact H2]. apply moves_off.
Qed.
Lemma plain_intro c : call_voice c = None -> (forall n b, c <> DPerc n b) -> plain_call c.
Proof. split; assumption. Qed.
Lemma quiet_plain c : quiet_call c -> plain_call c.
Proof. intros [H1 H2]. split; [exact H1|]. intros n b ->. exact H2. Qed.

(** ** One message *)
Lemma step_moves op s s' o :
  mop_ok op -> midi_ok s -> steps s op s' o -> moves (Some op) 0 (md_dev s) o (md_dev s').
Proof.
  intros Hop Hs E. destruct (step_ok _ _ _ _ Hs Hop E) as [Hs' _]. unfold steps in E.
  assert (Koff : forall c p, is_chan c -> off_msg op -> midi_note_off c p s = WDone s' o -> moves (Some op) 0 (md_dev s) o (md_dev s')).
  { intros c p Hc Hoff E1. destruct (ok_ch_get _ _ Hs Hc) as (m & Hm & _).
    destruct (midi_note_off_eq c p s m Hs Hc Hm) as (st & _ & _ & E2). rewrite E1 in E2. injection E2 as -> ->.
    assert (Hb : because off_msg (Some op)) by (exists op; auto).
    apply moves_map. intros j d _. unfold note_off_calls, note_off_dev, retrig_calls, off_calls.
    destruct (serves_note c p d) eqn:Es; [|destruct (falls_back _ _ _ _); apply p_stay].
    assert (Hon : d_on d = true).
    { unfold serves_note, isChannelPlayingNote in Es. apply andb_prop in Es as [_ Es]. apply andb_prop in Es as [Es _]. exact Es. }
    destruct (falls_back s m c p); [|apply path_one, a_off; assumption].
    unfold retrig_dev. destruct (m_porta m); [apply path_one, a_glide|]. cbv zeta.
    set (d1 := d_set_pitch (d_set_cents (d_set_on d true) 0) (off_next m p)).
    assert (E1' : d1 = d_set_pitch (d_set_cents d 0) (off_next m p)) by (clear -Hon; unfold d1; destruct d; cbn in *; subst; reflexivity).
    apply (path_app _ _ d [] d1); [apply path_one; rewrite E1'; apply a_again; assumption|].
    apply path_one. apply (a_replay _ _ d1); [exact Hb|reflexivity]. }
  destruct op as [c p v|c p|c k v|c p|c b|data| | |cb]; cbn [midi_step mop_ok] in *.
  - destruct Hop as (Hc & Hp & _). destruct (Z.eqb_spec v 0) as [->|Hv].
    { apply (Koff c p); auto. left; eauto. }
    destruct (ok_ch_get _ _ Hs Hc) as (m & Hm & _).
    destruct (midi_note_on_eq c p v s m Hs Hc Hp Hv Hm) as (s1 & o1 & E2 & R). rewrite E in E2. injection E2 as <- <-.
    assert (KF : forall i d, chosen s m c = Some i -> zget (md_dev s) i = Some d ->
      (d_midi d = c \/ d_on d = false) /\ (c = 9 -> d_ops d = VPsg -> d_midi d = 9) /\ (10 <= i -> d_midi d = c)).
    { intros i d Ci Hd. destruct (chosen_cases s m c i d Ci Hd) as (A1 & A2 & A3). split; [exact A1|].
      split; [|exact (chosen_high s m c i d Ci Hd)].
      intros -> Hops. destruct (md_dyn s); [|apply A2; reflexivity]. specialize (A3 eq_refl).
      unfold isPsgAndIncomingChanIsPercussive in A3. rewrite Hops in A3. discriminate. }
    destruct R as [|i d st Ht Ci Hd _ _ _ Hpo _|i d st Ht Ci Hd _ _ Ek _|i d Ht Ci Hd _].
    + apply m_stay.
    + apply (moves_path _ 0 _ i d); [apply path_one, a_glide|exact Hd].
    + destruct (KF i d Ci Hd) as (Hfree & Hq & Hhi).
      apply (moves_path _ 0 _ i d); [|exact Hd].
      apply (path_app _ _ d [] (d_set_glide d 0)); [apply path_one, a_glide|]. apply path_start; assumption.
    + destruct (KF i d Ci Hd) as (Hfree & Hq & Hhi).
      apply (moves_path _ 0 _ i d); [|exact Hd]. apply path_start; assumption.
  - destruct Hop. apply (Koff c p); auto. right; eauto.
  - destruct Hop as (Hc & Hk & Hv). destruct (ok_ch_get _ _ Hs Hc) as (m & Hm & _).
    destruct (midi_cc_result _ _ _ _ m _ _ Hs Hc Hv Hm E) as (o' & R & ->). clear E.
    apply moves_app with (md_dev s').
    2:{ apply moves_plain. destruct (md_cb s'); [constructor; [split; [reflexivity|discriminate]|constructor]|constructor]. }
    destruct R as [m' Hf|Hk'|Hk'|Hk'|s1 Hk' E|Hk'|s1 o1 Hk' E|Hk' _|Hk' Hr|Hk'|o1 Hk' Ho|Hk'|devs o1 Hk' HH];
      cbn [md_dev md_set_dev md_set_ch].
    + apply m_stay.
    + apply moves_map. intros j d _. unfold calls_at, at_chan. destruct (_ =? _); [|apply p_stay].
      destruct (Z.eqb_spec (d_vol d) v) as [<-|]; [rewrite set_same_vol; apply p_stay|apply path_one, a_vol].
    + apply moves_map. intros j d _. unfold calls_at, at_chan. destruct (_ =? _); [|apply p_stay].
      destruct (Z.eqb_spec (d_pan d) v) as [<-|]; [rewrite set_same_pan; apply p_stay|apply path_one, a_pan].
    + apply moves_off.
    + destruct (set_poly_eq _ _ _ _ Hs E) as (_ & _ & _ & _ & _ & _ & _ & HD).
      assert (Hr : because remapping (Some (MCc c k v))) by (eexists; split; [reflexivity|]; left; subst k; exists c, v; reflexivity).
      apply moves_silent; [destruct Hs' as [L' _]; rewrite L'; symmetry; apply Hs|]. intros j d d' Hd. rewrite HD, Hd. intros [= <-].
      apply path_one, a_midi. right; exact Hr.
    + apply moves_plain. constructor; [split; [reflexivity|discriminate]|constructor].
    + rewrite (resetAll_eq c s Hs Hc) in E. injection E as <- <-. cbn [md_dev].
      assert (Hr : because remapping (Some (MCc c k v))) by (eexists; split; [reflexivity|]; right; left; subst k; exists c, v; reflexivity).
      match goal with |- moves _ _ _ ?o (assign_modes _ _ ?l) => rewrite <- (app_nil_r o); apply moves_app with l end.
      * apply moves_init. intros j d _ _. right; left. eexists; split; [reflexivity|]. subst k; exists c, v; reflexivity.
      * apply moves_assign. right; exact Hr.
    + apply moves_plain. constructor; [split; [reflexivity|discriminate]|constructor].
    + replace (md_dev s) with (map (fun d => d) (md_dev s)) at 3 by apply map_id. apply moves_map. intros j d _. unfold calls_at.
      destruct (d_midi d =? c); [|apply p_stay]. destruct (d_bend d =? BEND_CENTRE); [apply p_stay|]. apply path_one, a_tuned.
    + apply m_stay.
    + destruct Ho as [->|(i & d & _ & _ & ->)]; [apply m_stay|].
      apply moves_plain. constructor; [split; [reflexivity|discriminate]|constructor].
    + apply moves_plain. apply Forall_forall. intros x Hx. apply in_flat_map in Hx as (d & _ & Hx).
      unfold calls_at, fm_call in Hx. destruct (_ =? _); [|destruct Hx]. destruct (md_nogm s); [destruct Hx|].
      destruct (fm_parameter _ _ _ _); [|destruct Hx]. destruct Hx as [<-|[]]. split; [reflexivity|discriminate].
    + destruct HH as [[-> ->]|(-> & _ & _ & Hf & _)]; [apply m_stay|].
      rewrite <- (app_nil_r o1). apply moves_app with (md_dev s).
      * apply moves_plain. eapply Forall_impl; [|exact Hf]. intros x ->. split; [reflexivity|discriminate].
      * apply moves_silent.
        -- unfold dac_devs. destruct (zget (md_dev s) 5); [apply zset_length|reflexivity].
        -- intros j d d' Hd. rewrite dac_devs_get, Hd. intros [= <-]. unfold dac_dev.
           destruct (Z.eqb_spec j 5) as [->|]; [|apply p_stay]. apply path_one. apply a_dac; [reflexivity|].
           eexists; split; [reflexivity|]. subst k; exists c, v; reflexivity.
  - destruct Hop as (Hc & _). destruct (ok_ch_get _ _ Hs Hc) as (m & Hm & _).
    rewrite (midi_program_eq _ _ _ m Hm) in E. injection E as <- <-. cbn [md_dev md_set_dev md_set_ch].
    match goal with |- moves _ _ _ _ ?l => apply moves_app with l end.
    + apply moves_map. intros j d _. unfold calls_at, at_chan. destruct (_ =? _); [|apply p_stay].
      destruct (Z.eqb_spec (d_prog d) p) as [<-|]; [rewrite set_same_prog; apply p_stay|apply path_one, a_prog].
    + apply moves_plain. destruct (md_cb s); [constructor; [split; [reflexivity|discriminate]|constructor]|constructor].
  - destruct Hop as (Hc & _). destruct (ok_ch_get _ _ Hs Hc) as (m & Hm & _).
    rewrite (midi_pitch_bend_eq _ _ _ m Hm) in E. injection E as <- <-. cbn [md_dev md_set_dev md_set_ch].
    apply moves_map. intros j d _. unfold calls_at, at_chan. destruct (_ =? _); [|apply p_stay]. destruct (d_on d); [|apply p_stay].
    destruct (Z.eqb_spec (d_bend d) b) as [<-|]; [rewrite set_same_bend; apply p_stay|apply path_one, a_bend].
  - apply midi_sysex_result in E. destruct E as [|t s1 o1 Ed E|a b s1 Ed E|a Ed|a Ed|a Ed|a Ed|o1 Hq]; cbn [md_dev md_set_nogm md_set_stick md_set_inv]; try apply m_stay.
    + unfold general_midi_reset in E. apply wbind_inv in E as (s2 & o2 & o3 & E1 & E2 & ->). cbv zeta in E2.
      destruct (all_channels_off_eq (zseq 0 16) s) as (devs & o4 & E4 & L & H1 & _). rewrite E4 in E1. injection E1 as <- <-.
      apply moves_app with devs; [apply (moves_channels_off _ _ _ _ _ E4)|].
      set (s3 := if md_pref (md_set_dev s devs) =? 2 then md_set_dyn (md_set_dev s devs) true else md_set_dev s devs) in *.
      assert (E5 : md_dev s3 = devs) by (unfold s3; destruct (_ =? _); reflexivity).
      rewrite reset_channels_eq in E2 by (rewrite E5, L; apply Hs). injection E2 as <- <-. cbn [md_dev]. rewrite E5.
      rewrite <- (app_nil_r (init_calls _ _ _ _)).
      match goal with |- moves _ _ _ _ (assign_modes _ _ ?l) => apply moves_app with l end.
      * apply moves_init. intros j d Hd _. right; right; right. split; [eexists; split; [reflexivity|]; exists t; f_equal; exact Ed|].
        destruct (zget_in_range (md_dev s) j) as [d0 Hd0]; [apply zget_Some in Hd; lia|].
        destruct (H1 j d0 Hd0) as (d1 & G1 & G2 & G3). rewrite Hd in G1. injection G1 as <-.
        destruct G2 as [-> | ->]; [|left; reflexivity].
        destruct (Z_le_gt_dec 0 (d_midi d0)); [destruct (Z_lt_le_dec (d_midi d0) 16)|].
        -- left. assert (Hi : In (d_midi d0) (zseq 0 16)) by (apply in_zseq; lia). specialize (G3 Hi).
           rewrite G3. reflexivity.
        -- right. unfold is_chan. lia.
        -- right. unfold is_chan. lia.
      * apply moves_assign. left. split; [intros j d; apply init_all_off|]. right; right. eexists; split; [reflexivity|]. exists t; f_equal; exact Ed.
    + assert (Hr : because remapping (Some (MSysex data))).
      { eexists; split; [reflexivity|]. right; right; left. exists [a; b]. unfold own_sysex. rewrite Ed. reflexivity. }
      destruct Hop as [Hop _]. rewrite Ed in Hop. rewrite Forall_forall in Hop.
      assert (Ha : 0 <= a) by (apply (Hop a); cbn; tauto). assert (Hb : 0 <= b) by (apply (Hop b); cbn; tauto).
      destruct (remap_eq a b s ltac:(apply Hs) Ha Hb) as [R|(_ & i & d & a' & Hd & _ & R & _)]; rewrite R in E; injection E as <-.
      * apply m_stay.
      * apply (moves_path _ 0 _ i d); [|exact Hd]. apply path_one, a_midi. right; exact Hr.
    + assert (Hr : because remapping (Some (MSysex data))).
      { eexists; split; [reflexivity|]. right; right; right. exists [a]. unfold own_sysex. rewrite Ed. reflexivity. }
      replace (md_dev (set_dynamic_mode (b2z (negb (a =? 0))) s)) with (assign_modes (negb (a =? 0)) 0 (md_dev s)) by (destruct (a =? 0); reflexivity).
      apply moves_assign. right; exact Hr.
    + apply moves_plain. eapply Forall_impl; [|exact Hq]. intros x. apply quiet_plain.
  - unfold reset in E. do 3 apply emit_inv in E as (? & E & ->). cbv zeta in E.
    rewrite reset_channels_eq in E by apply Hs. injection E as <- <-.
    do 3 (apply m_plain; [split; [reflexivity|discriminate]|]). cbn [md_dev].
    rewrite <- (app_nil_r (init_calls _ _ _ _)).
    match goal with |- moves _ _ _ _ (assign_modes _ _ ?l) => apply moves_app with l end.
    + apply moves_init. intros j d _ _. right; right; left. reflexivity.
    + apply moves_assign. left. split; [intros j d; apply init_all_off|]. right; left; reflexivity.
  - rewrite (midi_tick_eq _ Hs) in E. injection E as <- <-. cbn [md_dev md_set_dev]. apply moves_map. intros j d _. apply path_tick.
  - injection E as <- <-. apply m_stay.
Qed.
