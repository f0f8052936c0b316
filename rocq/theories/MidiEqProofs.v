(** Exact effect of each message on a well-formed state, in closed form. *)
From Verif Require Import Base BaseLemmas PitchModel PitchProofs NotePriorityModel NotePriorityProofs SynthModel.
From Verif Require Import MidiModel MidiSpec MidiProofs MidiOkProofs.

Lemma wbind_done {A B} (m : wres A) (k : A -> wres B) a o b o' :
  m = WDone a o -> k a = WDone b o' -> wbind m k = WDone b (o ++ o').
Proof. intros -> E. unfold wbind. rewrite E. reflexivity. Qed.
Lemma wbind_ret {A B} (a : A) (k : A -> wres B) : wbind (wret a) k = k a.
Proof. unfold wbind, wret. destruct (k a); reflexivity. Qed.
Lemma wbind_emit {B} c (k : unit -> wres B) b o' : k tt = WDone b o' -> wbind (wemit c) k = WDone b (c :: o').
Proof. intros E. unfold wbind, wemit. rewrite E. reflexivity. Qed.

(** Device channels serving [c], mapped by [g], making the calls [h]. *)
Definition at_chan (c : Z) (g : dev -> dev) (d : dev) : dev := if d_midi d =? c then g d else d.
Definition calls_at (c : Z) (h : dev -> list dcall) (d : dev) : list dcall := if d_midi d =? c then h d else [].

Lemma for_with_map c f g h l :
  (forall d, In d l -> d_midi d = c -> f d = WDone (g d) (h d)) ->
  for_with c f l = WDone (map (at_chan c g) l) (flat_map (calls_at c h) l).
Proof.
  induction l as [|d t IH]; intros H; cbn [for_with map flat_map]; [reflexivity|].
  apply (wbind_done _ _ (at_chan c g d) (calls_at c h d)).
  - unfold at_chan, calls_at.
    destruct (Z.eqb_spec (d_midi d) c); [apply H; [left; reflexivity|assumption]|reflexivity].
  - rewrite <- (app_nil_r (flat_map _ _)). eapply wbind_done; [|reflexivity].
    apply IH. intros; apply H; [right|]; assumption.
Qed.

Lemma set_same_vol d : d_set_vol d (d_vol d) = d. Proof. destruct d; reflexivity. Qed.
Lemma set_same_pan d : d_set_pan d (d_pan d) = d. Proof. destruct d; reflexivity. Qed.
Lemma set_same_prog d : d_set_prog d (d_prog d) = d. Proof. destruct d; reflexivity. Qed.
Lemma set_same_bend d : d_set_bend d (d_bend d) = d. Proof. destruct d; reflexivity. Qed.

Lemma pitch_call_eq chs d m :
  zget chs (d_midi d) = Some m ->
  set_downstream_pitch chs d = WDone tt [DPitch (d_ops d) (d_num d) (pc_pitch (eff m d)) (pc_cents (eff m d))].
Proof. intros H. unfold set_downstream_pitch, effectivePitchCents. rewrite (wget_Some _ _ _ H). reflexivity. Qed.
Lemma note_on_call_eq chs d m v :
  zget chs (d_midi d) = Some m ->
  set_downstream_note_on chs d v = WDone tt [DNoteOn (d_ops d) (d_num d) (pc_pitch (eff m d)) (pc_cents (eff m d)) v].
Proof. intros H. unfold set_downstream_note_on, effectivePitchCents. rewrite (wget_Some _ _ _ H). reflexivity. Qed.

Lemma channel_pan_eq c v s m :
  zget (md_ch s) c = Some m -> m_num m = c ->
  channel_pan c v s
  = WDone (md_set_dev (md_set_ch s (zset (md_ch s) c (m_set_pan m v))) (map (at_chan c (fun d => d_set_pan d v)) (md_dev s)))
          (flat_map (calls_at c (fun d => if d_pan d =? v then [] else [DPan (d_ops d) (d_num d) v])) (md_dev s)).
Proof.
  intros Hm Hn. unfold channel_pan. rewrite (wget_Some _ _ _ Hm), wbind_ret. cbv zeta.
  rewrite <- (app_nil_r (flat_map _ _)). eapply wbind_done; [|reflexivity].
  cbn [m_num m_set_pan]. rewrite Hn. apply for_with_map. intros d _ _. unfold update_pan. cbn.
  destruct (Z.eqb_spec (d_pan d) v) as [<-|]; cbn; [rewrite set_same_pan|]; reflexivity.
Qed.
Lemma channel_volume_eq c v s m :
  zget (md_ch s) c = Some m -> m_num m = c ->
  channel_volume c v s
  = WDone (md_set_dev (md_set_ch s (zset (md_ch s) c (m_set_vol m v))) (map (at_chan c (fun d => d_set_vol d v)) (md_dev s)))
          (flat_map (calls_at c (fun d => if d_vol d =? v then [] else [DVolume (d_ops d) (d_num d) v])) (md_dev s)).
Proof.
  intros Hm Hn. unfold channel_volume. rewrite (wget_Some _ _ _ Hm), wbind_ret. cbv zeta.
  rewrite <- (app_nil_r (flat_map _ _)). eapply wbind_done; [|reflexivity].
  cbn [m_num m_set_vol]. rewrite Hn. apply for_with_map. intros d _ _. unfold update_volume. cbn.
  destruct (Z.eqb_spec (d_vol d) v) as [<-|]; cbn; [rewrite set_same_vol|]; reflexivity.
Qed.
Lemma midi_program_eq c v s m :
  zget (md_ch s) c = Some m ->
  midi_program c v s
  = WDone (md_set_dev (md_set_ch s (zset (md_ch s) c (m_set_prog m v))) (map (at_chan c (fun d => d_set_prog d v)) (md_dev s)))
          (flat_map (calls_at c (fun d => if d_prog d =? v then [] else [DProgram (d_ops d) (d_num d) v])) (md_dev s)
           ++ (if md_cb s then [DChange 1 c 0 v] else [])).
Proof.
  intros Hm. unfold midi_program. rewrite (wget_Some _ _ _ Hm), wbind_ret. cbv zeta.
  eapply wbind_done.
  - apply for_with_map with (g := fun d => d_set_prog d v)
      (h := fun d => if d_prog d =? v then [] else [DProgram (d_ops d) (d_num d) v]).
    intros d _ _. unfold update_program. cbn.
    destruct (Z.eqb_spec (d_prog d) v) as [<-|]; cbn; [rewrite set_same_prog|]; reflexivity.
  - unfold notify_change; cbn. destruct (md_cb s); reflexivity.
Qed.
Lemma midi_pitch_bend_eq c v s m :
  zget (md_ch s) c = Some m ->
  midi_pitch_bend c v s
  = WDone (md_set_dev (md_set_ch s (zset (md_ch s) c (m_set_bend m v)))
             (map (at_chan c (fun d => if d_on d then d_set_bend d v else d)) (md_dev s)))
          (flat_map (calls_at c (fun d => if d_on d then if d_bend d =? v then []
             else [DPitch (d_ops d) (d_num d) (pc_pitch (eff (m_set_bend m v) (d_set_bend d v)))
                     (pc_cents (eff (m_set_bend m v) (d_set_bend d v)))] else [])) (md_dev s)).
Proof.
  intros Hm. unfold midi_pitch_bend. rewrite (wget_Some _ _ _ Hm), wbind_ret. cbv zeta.
  rewrite <- (app_nil_r (flat_map _ _)). eapply wbind_done; [|reflexivity].
  apply for_with_map. intros d _ Hd. destruct (d_on d); [|reflexivity]. unfold update_pitch_bend.
  cbn [m_bend m_set_bend]. destruct (Z.eqb_spec (d_bend d) v) as [<-|]; cbn [negb].
  - rewrite set_same_bend. reflexivity.
  - rewrite (pitch_call_eq _ _ (m_set_bend m v)).
    + reflexivity.
    + cbn. rewrite Hd. apply zget_zset_same. eapply zget_Some; eassumption.
Qed.
Lemma all_notes_off_eq c s :
  all_notes_off c s
  = WDone (md_set_dev s (map (at_chan c (fun d => d_set_pitch (d_set_on d false) 0)) (md_dev s)))
          (flat_map (calls_at c (fun d => [DAllOff (d_ops d) (d_num d)])) (md_dev s)).
Proof.
  unfold all_notes_off. rewrite <- (app_nil_r (flat_map _ _)). eapply wbind_done; [|reflexivity].
  apply for_with_map. intros d _ _. reflexivity.
Qed.
Definition set_range (m : mchan) (v : Z) (is_msb : bool) : mchan :=
  m_set_range m (if is_msb then mkPc v (pc_cents (m_range m)) else mkPc (pc_pitch (m_range m)) (s8 v)).
Lemma at_chan_id c l : map (at_chan c (fun d => d)) l = l.
Proof. rewrite <- (map_id l) at 2. apply map_ext. intros d. unfold at_chan. destruct (_ =? _); reflexivity. Qed.
Lemma update_pb_range_eq c v b s m :
  zget (md_ch s) c = Some m -> m_num m = c ->
  update_pb_range c v b s
  = WDone (md_set_ch s (zset (md_ch s) c (set_range m v b)))
          (flat_map (calls_at c (fun d => if d_bend d =? BEND_CENTRE then []
             else [DPitch (d_ops d) (d_num d) (pc_pitch (eff (set_range m v b) d))
                     (pc_cents (eff (set_range m v b) d))])) (md_dev s)).
Proof.
  intros Hm Hn. unfold update_pb_range. rewrite (wget_Some _ _ _ Hm), wbind_ret. cbv zeta.
  rewrite <- (app_nil_r (flat_map _ _)). eapply wbind_done.
  - rewrite (for_with_map _ _ (fun d => d) (fun d => if d_bend d =? BEND_CENTRE then []
             else [DPitch (d_ops d) (d_num d) (pc_pitch (eff (set_range m v b) d))
                     (pc_cents (eff (set_range m v b) d))])).
    + cbn [m_num m_set_range]. rewrite Hn, at_chan_id. reflexivity.
    + cbn [m_num m_set_range]. rewrite Hn. intros d _ Hd.
      destruct (Z.eqb_spec (d_bend d) BEND_CENTRE); cbn [negb]; [reflexivity|].
      rewrite (pitch_call_eq _ _ (set_range m v b)); [reflexivity|].
      cbn. rewrite Hd. apply zget_zset_same. eapply zget_Some; eassumption.
  - destruct s; reflexivity.
Qed.

(** Portamento. *)
Definition glide_inc (porta : Z) (d : dev) : Z :=
  if d_pitch d <? d_glide d then s16 porta
  else if (d_glide d <? d_pitch d) || ((d_glide d =? d_pitch d) && (0 <? d_cents d)) then s16 (0 - porta) else 0.
Definition glide_dev (porta : Z) (d : dev) : dev :=
  if (d_glide d =? 0) || ((d_glide d =? d_pitch d) && (d_cents d =? 0)) then d
  else
    let inc := glide_inc porta d in
    let pc := pc_shift (mkPc (d_pitch d) (d_cents d)) inc in
    if ((0 <? inc) && (d_glide d <=? pc_pitch pc)) || ((inc <? 0) && (pc_pitch pc <=? d_glide d)) then
      d_set_glide (d_set_cents (d_set_pitch d (u8 (d_glide d))) 0) 0
    else d_set_cents (d_set_pitch d (pc_pitch pc)) (pc_cents pc).
Definition glide_calls (m : mchan) (d : dev) : list dcall :=
  if (d_glide d =? 0) || ((d_glide d =? d_pitch d) && (d_cents d =? 0)) then []
  else let d' := glide_dev (m_int m) d in
       [DPitch (d_ops d') (d_num d') (pc_pitch (eff m d')) (pc_cents (eff m d'))].
Lemma glide_midi n d : d_midi (glide_dev n d) = d_midi d.
Proof. unfold glide_dev. destruct (_ || _); [reflexivity|]. cbv zeta. destruct (_ || _); reflexivity. Qed.
Lemma process_channel_glide_eq chs m d :
  zget chs (d_midi d) = Some m ->
  process_channel_glide chs (m_int m) d = WDone (glide_dev (m_int m) d) (glide_calls m d).
Proof.
  intros H. unfold process_channel_glide, glide_calls.
  destruct ((d_glide d =? 0) || ((d_glide d =? d_pitch d) && (d_cents d =? 0))) eqn:E.
  - unfold glide_dev. rewrite E. reflexivity.
  - assert (Hg : glide_dev (m_int m) d =
        (let inc := glide_inc (m_int m) d in
         let pc := pc_shift (mkPc (d_pitch d) (d_cents d)) inc in
         if ((0 <? inc) && (d_glide d <=? pc_pitch pc)) || ((inc <? 0) && (pc_pitch pc <=? d_glide d)) then
           d_set_glide (d_set_cents (d_set_pitch d (u8 (d_glide d))) 0) 0
         else d_set_cents (d_set_pitch d (pc_pitch pc)) (pc_cents pc))) by (unfold glide_dev; rewrite E; reflexivity).
    cbv zeta in *. fold (glide_inc (m_int m) d). rewrite <- Hg.
    rewrite (pitch_call_eq _ _ m); [reflexivity|]. rewrite glide_midi. exact H.
Qed.
Definition tick_dev (chs : list mchan) (d : dev) : dev :=
  match zget chs (d_midi d) with
  | Some m => if negb (d_midi d =? UNASSIGNED) && m_porta m && d_on d then glide_dev (m_int m) d else d
  | None => d
  end.
Definition tick_calls (chs : list mchan) (d : dev) : list dcall :=
  match zget chs (d_midi d) with
  | Some m => if negb (d_midi d =? UNASSIGNED) && m_porta m && d_on d then glide_calls m d else []
  | None => []
  end.
Lemma process_portamento_eq chs l :
  length chs = 16%nat -> (forall d, In d l -> valid_map (d_midi d)) ->
  process_portamento chs l = WDone (map (tick_dev chs) l) (flat_map (tick_calls chs) l).
Proof.
  intros Hl. induction l as [|d t IH]; intros H; cbn [process_portamento map flat_map]; [reflexivity|].
  apply (wbind_done _ _ (tick_dev chs d) (tick_calls chs d)).
  - unfold tick_dev, tick_calls.
    destruct (H d) as [V|V]; [left; reflexivity| |].
    + unfold is_chan in V. destruct (zget_in_range chs (d_midi d)) as [m Hm]; [lia|].
      rewrite Hm. destruct (Z.eqb_spec (d_midi d) UNASSIGNED); [reflexivity|].
      rewrite (wget_Some _ _ _ Hm), wbind_ret. cbn [negb andb]. destruct (m_porta m && d_on d); [|reflexivity].
      apply process_channel_glide_eq, Hm.
    + rewrite V. cbn. destruct (zget chs 127); reflexivity.
  - rewrite <- (app_nil_r (flat_map _ _)). eapply wbind_done; [|reflexivity].
    apply IH. intros; apply H; right; assumption.
Qed.
Lemma midi_tick_eq s :
  midi_ok s -> midi_tick s = WDone (md_set_dev s (map (tick_dev (md_ch s)) (md_dev s)))
                                   (flat_map (tick_calls (md_ch s)) (md_dev s)).
Proof.
  intros Hs. unfold midi_tick. rewrite <- (app_nil_r (flat_map _ _)). eapply wbind_done; [|reflexivity].
  apply process_portamento_eq; [apply Hs|]. intros d Hd. destruct (In_zget _ _ Hd) as [i Hi].
  apply (ok_dev _ _ _ Hs Hi).
Qed.

(** Initialising device channels. *)
Fixpoint mapi (f : Z -> dev -> dev) (i : Z) (l : list dev) : list dev :=
  match l with [] => [] | d :: t => f i d :: mapi f (i + 1) t end.
Lemma zget_mapi f : forall l i j,
  zget (mapi f i l) j = match zget l j with Some d => Some (f (i + j) d) | None => None end.
Proof.
  induction l as [|d t IH]; intros i j; cbn [mapi]; [rewrite !zget_nil; reflexivity|].
  rewrite !zget_cons. destruct (Z.eqb_spec j 0) as [->|]; [rewrite Z.add_0_r; reflexivity|].
  rewrite IH. destruct (zget t (j - 1)); [|reflexivity].
  replace (i + 1 + (j - 1)) with (i + j) by lia. reflexivity.
Qed.
Lemma mapi_length f l : forall i, length (mapi f i l) = length l.
Proof. induction l; intros i; cbn; congruence. Qed.
Definition chan_at (chs : list mchan) (i : Z) : mchan := match zget chs i with Some m => m | None => mchan0 end.
Definition init_dev (chs : list mchan) (sel : dev -> bool) (i : Z) (d : dev) : dev :=
  if sel d then synced (chan_at chs i) (fresh_dev i d) else d.
Fixpoint init_calls (chs : list mchan) (sel : dev -> bool) (i : Z) (l : list dev) : list dcall :=
  match l with
  | [] => []
  | d :: t => (if sel d then sync_calls (chan_at chs i) (fresh_dev i d) else []) ++ init_calls chs sel (i + 1) t
  end.
Lemma init_devices_eq chs sel : forall l i,
  0 <= i -> i + Z.of_nat (length l) <= Z.of_nat (length chs) ->
  init_devices chs sel i l = WDone (mapi (init_dev chs sel) i l) (init_calls chs sel i l).
Proof.
  induction l as [|d t IH]; intros i Hi Hl; cbn [init_devices mapi init_calls length] in *; [reflexivity|].
  apply (wbind_done _ _ (init_dev chs sel i d) (if sel d then sync_calls (chan_at chs i) (fresh_dev i d) else [])).
  - unfold init_dev. destruct (sel d); [|reflexivity].
    destruct (zget_in_range chs i) as [m Hm]; [lia|]. unfold chan_at. rewrite Hm.
    apply init_device_channel_eq, Hm.
  - rewrite <- (app_nil_r (init_calls _ _ _ _)). eapply wbind_done; [|reflexivity]. apply IH; lia.
Qed.
Definition init_chs : list mchan := map init_midi_channel (zseq 0 16).
Lemma chan_at_init i : is_chan i -> chan_at init_chs i = init_midi_channel i.
Proof.
  intros Hi. unfold is_chan in Hi.
  assert (H : i = 0 \/ i = 1 \/ i = 2 \/ i = 3 \/ i = 4 \/ i = 5 \/ i = 6 \/ i = 7 \/ i = 8 \/ i = 9 \/ i = 10 \/
              i = 11 \/ i = 12 \/ i = 13 \/ i = 14 \/ i = 15) by lia.
  repeat (destruct H as [-> | H]; [reflexivity|]). subst i. reflexivity.
Qed.
Lemma reset_channels_eq s :
  length (md_dev s) = 13%nat ->
  reset_channels s
  = WDone (mkMidi (assign_modes (md_dyn s) 0 (mapi (init_dev init_chs (fun _ => true)) 0 (md_dev s))) init_chs
             (md_dyn s) (md_pref s) (md_nogm s) (md_stick s) (md_inv s) (md_cb s))
          (init_calls init_chs (fun _ => true) 0 (md_dev s)).
Proof.
  intros Hl. unfold reset_channels. fold init_chs. cbv zeta. rewrite <- (app_nil_r (init_calls _ _ _ _)).
  eapply wbind_done; [apply init_devices_eq; cbn; lia|]. reflexivity.
Qed.

(** The state set by a reset does not depend on the previous one, except for
    device values that initialisation synchronises. *)
Definition dev_after_init (dyn : bool) (i : Z) (d : dev) : dev :=
  d_set_midi (synced (init_midi_channel i) (fresh_dev i d)) (if dyn then UNASSIGNED else i).
Lemma reset_dev_get dyn l i d :
  length l = 13%nat ->
  zget (assign_modes dyn 0 (mapi (init_dev init_chs (fun _ => true)) 0 l)) i = Some d ->
  0 <= i < 13 /\ exists d0, zget l i = Some d0 /\ d = dev_after_init dyn i d0.
Proof.
  intros Hl. rewrite zget_assign, zget_mapi. destruct (zget l i) as [d0|] eqn:E; [|discriminate].
  intros [= <-]. assert (Hi := zget_Some _ _ _ E). split; [lia|]. exists d0. split; [reflexivity|].
  unfold dev_after_init, init_dev. rewrite !Z.add_0_l. rewrite chan_at_init by (unfold is_chan; lia). reflexivity.
Qed.

(** Note off. *)
Definition serves_note (c p : Z) (d : dev) : bool := (d_midi d =? c) && isChannelPlayingNote d p.
Definition off_dev (d : dev) : dev := d_set_pitch (d_set_on d false) 0.
Definition retrig_dev (porta : bool) (next : Z) (d : dev) : dev :=
  if porta then d_set_glide d next else d_set_pitch (d_set_cents (d_set_on d true) 0) next.

Lemma voice_count_nonneg c b l : 0 <= voice_count c b l.
Proof. induction l as [|d t IH]; cbn [voice_count]; [lia|]. destruct (_ && _); lia. Qed.
Lemma playing_counts c p d : serves_note c p d = true -> (d_midi d =? c) && negb (true && negb (d_on d)) = true.
Proof.
  unfold serves_note, isChannelPlayingNote. intros H. apply andb_prop in H as [-> H].
  apply andb_prop in H as [-> _]. reflexivity.
Qed.
Lemma no_match_after c p d t :
  serves_note c p d = true -> voice_count c true (d :: t) <= 1 -> forall e, In e t -> serves_note c p e = false.
Proof.
  intros H Hv. cbn [voice_count] in Hv. rewrite (playing_counts _ _ _ H) in Hv.
  assert (Ht : voice_count c true t = 0) by (assert (N := voice_count_nonneg c true t); lia). clear -Ht.
  induction t as [|x t IH]; intros e []; cbn [voice_count] in Ht.
  - subst x. destruct (serves_note c p e) eqn:E; [|reflexivity].
    rewrite (playing_counts _ _ _ E) in Ht. assert (N := voice_count_nonneg c true t). lia.
  - apply IH; [|assumption]. assert (N := voice_count_nonneg c true t). revert Ht. match goal with |- context [if ?b then 1 else 0] => destruct b end; lia.
Qed.

Definition off_calls (c p : Z) (d : dev) : list dcall :=
  if serves_note c p d then [DNoteOff (d_ops d) (d_num d) p] else [].
Definition retrig_calls (mm m : mchan) (c p next : Z) (d : dev) : list dcall :=
  if serves_note c p d then
    if m_porta m then []
    else let d' := retrig_dev false next d in
         [DNoteOn (d_ops d') (d_num d') (pc_pitch (eff mm d')) (pc_cents (eff mm d')) (m_vel m)]
  else [].

Lemma note_off_loop_off chs c p next m : forall l h st single,
  negb h && single && negb (next =? 0) = false ->
  note_off_loop chs c p next single m h st l
  = WDone (st, map (fun d => if serves_note c p d then off_dev d else d) l) (flat_map (off_calls c p) l).
Proof.
  induction l as [|d t IH]; intros h st single H; cbn [note_off_loop map flat_map]; [reflexivity|].
  fold (serves_note c p d). unfold off_calls at 1. destruct (serves_note c p d).
  - rewrite H. eapply wbind_done; [reflexivity|].
    rewrite <- (app_nil_r (flat_map _ _)). eapply wbind_done; [apply (IH h st single H)|reflexivity].
  - cbn [app]. rewrite <- (app_nil_r (flat_map _ _)). eapply wbind_done; [apply (IH h st single H)|reflexivity].
Qed.
Lemma map_none c p (g : dev -> dev) l : (forall e, In e l -> serves_note c p e = false) ->
  map (fun d => if serves_note c p d then g d else d) l = l.
Proof. intros H. rewrite <- (map_id l) at 2. apply map_ext_in. intros d Hd. rewrite (H _ Hd). reflexivity. Qed.
Lemma flat_none {A} (h : dev -> list A) l : (forall e, In e l -> h e = []) -> flat_map h l = [].
Proof. induction l as [|d t IH]; intros H; cbn; [reflexivity|]. rewrite H by (left; reflexivity). apply IH. intros; apply H; right; assumption. Qed.

Lemma note_off_loop_retrig chs c p next mm m : zget chs c = Some mm -> seven next -> next <> 0 ->
  forall l st, stack_ok st -> voice_count c true l <= 1 ->
  exists st', note_off_loop chs c p next true m false st l
    = WDone (st', map (fun d => if serves_note c p d then retrig_dev (m_porta m) next d else d) l)
            (flat_map (retrig_calls mm m c p next) l) /\ stack_ok st' /\
    keys st' = (if existsb (serves_note c p) l && m_porta m && Nat.ltb (length (keys st)) 10
                then keys st ++ [next] else keys st).
Proof.
  intros Hmm Hn Hn0. induction l as [|d t IH]; intros st Hst Hv.
  { exists st. split; [reflexivity|]. split; [exact Hst|reflexivity]. }
  cbn [note_off_loop map flat_map existsb]. fold (serves_note c p d). unfold retrig_calls at 1.
  destruct (serves_note c p d) eqn:Es.
  - assert (Hnone := no_match_after _ _ _ _ Es Hv). cbn [negb andb].
    destruct (Z.eqb_spec next 0); [contradiction|]. cbn [negb].
    assert (Hoff : forall st', note_off_loop chs c p next true m true st' t = WDone (st', t) []).
    { intros st'. rewrite note_off_loop_off by reflexivity. rewrite map_none by assumption.
      rewrite flat_none; [reflexivity|]. intros e He. unfold off_calls. rewrite (Hnone _ He). reflexivity. }
    rewrite (map_none c p _ t Hnone).
    rewrite (flat_none (retrig_calls mm m c p next) t) by (intros e He; unfold retrig_calls; rewrite (Hnone _ He); reflexivity).
    rewrite orb_true_l. cbn [andb]. unfold retrig_dev. destruct (m_porta m).
    + destruct (of_np_push st next Hst Hn) as (st' & E & Hst' & Hk). exists st'.
      split; [|split; [exact Hst'|exact Hk]]. rewrite E.
      unfold wbind, wret. cbv beta iota. rewrite Hoff. reflexivity.
    + exists st. split; [|split; [exact Hst|reflexivity]].
      unfold dev_chan_note_on. cbv zeta.
      rewrite (note_on_call_eq _ _ mm).
      2:{ cbn. unfold serves_note in Es. apply andb_prop in Es as [Em _]. apply Z.eqb_eq in Em. rewrite Em. exact Hmm. }
      rewrite app_nil_r. unfold wbind, wret. cbv beta iota. rewrite Hoff. reflexivity.
  - cbn [negb andb app orb]. destruct (IH st Hst) as (st' & E & Hst' & Hk).
    { cbn [voice_count] in Hv. revert Hv. match goal with |- context [if ?b then 1 else 0] => destruct b end; lia. }
    exists st'. split; [|split; [exact Hst'|exact Hk]].
    rewrite <- (app_nil_r (flat_map _ _)). eapply wbind_done; [exact E|reflexivity].
Qed.

(** [single]: exactly one device channel sounds for the channel.  [next]: the
    key to fall back to. *)
Definition off_stack (m : mchan) (p : Z) : list Z := filter (fun x => negb (x =? p)) (keys (m_np m)).
Definition off_next (m : mchan) (p : Z) : Z := last (off_stack m p) 0.
Definition falls_back (s : midi) (m : mchan) (c p : Z) : bool :=
  (voice_count c true (md_dev s) =? 1) && negb (off_next m p =? 0).
Definition note_off_dev (s : midi) (m : mchan) (c p : Z) (d : dev) : dev :=
  if serves_note c p d then if falls_back s m c p then retrig_dev (m_porta m) (off_next m p) d else off_dev d else d.
Definition note_off_calls (s : midi) (m : mchan) (c p : Z) (d : dev) : list dcall :=
  if falls_back s m c p then retrig_calls m m c p (off_next m p) d else off_calls c p d.
Definition note_off_keys (s : midi) (m : mchan) (c p : Z) : list Z :=
  if falls_back s m c p && existsb (serves_note c p) (md_dev s) && m_porta m then off_stack m p
  else removelast (off_stack m p).

Lemma midi_note_off_eq c p s m :
  midi_ok s -> is_chan c -> zget (md_ch s) c = Some m ->
  exists st, stack_ok st /\ keys st = note_off_keys s m c p /\
  midi_note_off c p s
  = WDone (md_set_dev (md_set_ch s (zset (md_ch s) c (m_set_np m st))) (map (note_off_dev s m c p) (md_dev s)))
          (flat_map (note_off_calls s m c p) (md_dev s)).
Proof.
  intros Hs Hc Hm. destruct (ok_ch _ _ _ Hs Hm) as [Hmok _].
  assert (Hst : stack_ok (m_np m)) by apply Hmok.
  destruct (of_np_remove _ p Hst) as (st1 & E1 & Hst1 & K1).
  destruct (of_np_pop _ Hst1) as (st2 & E2 & Hst2 & K2 & Hnx). rewrite K1 in *.
  unfold midi_note_off. rewrite (wget_Some _ _ _ Hm), wbind_ret, E1.
  unfold wbind at 1. unfold note_off_dev, note_off_calls, note_off_keys, falls_back.
  fold (off_stack m p) in *. fold (off_next m p) in *.
  assert (Hlen : (length (off_stack m p) <= 10)%nat).
  { unfold off_stack. assert (L := filter_length_le (fun x => negb (x =? p)) (keys (m_np m))).
    destruct Hst as (S1 & S2 & _). unfold keys in *. rewrite firstn_length in L. lia. }
  assert (K2' : length (removelast (off_stack m p)) = pred (length (off_stack m p))).
  { destruct (off_stack m p) as [|a l]; [reflexivity|]. clear. revert a. induction l as [|b l IH]; intros a; [reflexivity|].
    change (removelast (a :: b :: l)) with (a :: removelast (b :: l)). cbn [length]. rewrite IH. reflexivity. }
  rewrite E2. unfold is_single_voice_channel.
  destruct ((voice_count c true (md_dev s) =? 1) && negb (off_next m p =? 0)) eqn:Ef.
  - apply andb_prop in Ef as [F1 F2]. rewrite F1.
    destruct (note_off_loop_retrig (md_ch s) c p (off_next m p) m m Hm Hnx ltac:(lia) (md_dev s) st2 Hst2 ltac:(lia))
      as (st3 & E3 & Hst3 & K3).
    exists st3. split; [exact Hst3|]. split.
    + rewrite K3, K2. cbn [andb]. destruct (existsb _ _ && m_porta m) eqn:Eb; cbn [andb]; [|reflexivity].
      assert (Hne : off_stack m p <> []).
      { intros E. unfold off_next in F2. rewrite E in F2. discriminate. }
      destruct (Nat.ltb_spec (length (removelast (off_stack m p))) 10).
      * unfold off_next. symmetry. apply app_removelast_last. exact Hne.
      * destruct (off_stack m p); [congruence|]. cbn [length] in *. lia.
    + unfold wbind, wret. cbv beta iota. rewrite E3. cbn [app]. rewrite app_nil_r. reflexivity.
  - exists st2. split; [exact Hst2|]. split; [rewrite K2; reflexivity|].
    unfold wbind, wret. cbv beta iota. rewrite note_off_loop_off by exact Ef. cbn [app]. rewrite app_nil_r. reflexivity.
Qed.

(** Note on. *)
Definition first_dev (devs : list dev) (p : dev -> bool) (is : list Z) : option Z :=
  find (fun i => match zget devs i with Some d => p d | None => false end) is.
Lemma find_dev_eq devs p is :
  length devs = 13%nat -> (forall i, In i is -> 0 <= i < 13) -> find_dev devs p is = WDone (first_dev devs p is) [].
Proof.
  intros Hl. induction is as [|i t IH]; intros Hin; cbn [find_dev]; [reflexivity|].
  unfold first_dev. cbn [find].
  destruct (zget_in_range devs i) as [d Hd]; [rewrite Hl; apply Hin; left; reflexivity|].
  rewrite (wget_Some _ _ _ Hd), wbind_ret, Hd. destruct (p d); [reflexivity|].
  apply IH. intros; apply Hin; right; assumption.
Qed.
Lemma find_upto devs p a b :
  length devs = 13%nat -> 0 <= a -> b < 13 -> find_dev devs p (upto a b) = WDone (first_dev devs p (upto a b)) [].
Proof. intros Hl Ha Hb. apply find_dev_eq; [assumption|]. intros i Hi. apply in_upto in Hi. lia. Qed.
Lemma first_dev_some devs p a b i :
  first_dev devs p (upto a b) = Some i -> a <= i <= b /\ exists d, zget devs i = Some d /\ p d = true.
Proof.
  unfold first_dev. intros H. apply find_some in H as [H1 H2]. apply in_upto in H1. split; [assumption|].
  destruct (zget devs i) as [d|]; [eauto|discriminate].
Qed.
Lemma first_dev_none devs p a b i d :
  first_dev devs p (upto a b) = None -> a <= i <= b -> zget devs i = Some d -> p d = false.
Proof.
  unfold first_dev. intros H Hi Hd. assert (X := find_none _ _ H i (proj2 (in_upto a b i) Hi)).
  cbv beta in X. rewrite Hd in X. exact X.
Qed.

Definition orelse {A} (a b : option A) : option A := match a with Some x => Some x | None => b end.
Definition by_midi (devs : list dev) (c : Z) : option Z := first_dev devs (fun d => d_midi d =? c) (upto 0 12).
Definition suitable (c : Z) (d : dev) : bool := isChannelSuitable d c.
Definition square_dev (devs : list dev) (m : mchan) (c : Z) : option Z :=
  if (m_prog m =? 80) || (m_prog m =? 89) || (m_prog m =? 99) then first_dev devs (suitable c) (upto 6 7) else None.
Definition search_dev (devs : list dev) (c lo hi : Z) : option Z :=
  orelse (first_dev devs (suitable c) (upto lo hi))
         (first_dev devs (fun d => (d_midi d =? c) && negb (isPsgAndIncomingChanIsPercussive d c)) (upto lo hi)).
Definition specific_dev (s : midi) (c lo hi : Z) : option Z :=
  if md_stick s then
    match by_midi (md_dev s) c with
    | None => None
    | Some i => match zget (md_dev s) i with
                | Some d => if vt_eqb (d_ops d) VFm then search_dev (md_dev s) c 0 5 else search_dev (md_dev s) c 6 8
                | None => None
                end
    end
  else search_dev (md_dev s) c lo hi.
(** The device channel a note on is given to. *)
Definition chosen (s : midi) (m : mchan) (c : Z) : option Z :=
  let (lo, hi) := device_min_max (m_sel m) in
  orelse (first_dev (md_dev s) (fun d => (d_midi d =? c) && suitable c d) (upto lo hi))
    (if md_dyn s then
       orelse (square_dev (md_dev s) m c)
         (orelse (specific_dev s c lo hi) (first_dev (md_dev s) (suitable c) (upto lo (hi - 1))))
     else by_midi (md_dev s) c).

Lemma square_loop_eq devs m c : length devs = 13%nat ->
  square_loop devs m c [80; 89; 99] = WDone (square_dev devs m c) [].
Proof.
  intros Hl. unfold square_dev.
  assert (Hf := find_upto devs (fun d => isChannelSuitable d c) 6 7 Hl ltac:(lia) ltac:(lia)).
  cbn [square_loop]. change (8 - 1) with 7. rewrite Hf.
  change (fun d => isChannelSuitable d c) with (suitable c).
  destruct (Z.eqb_spec (m_prog m) 80), (Z.eqb_spec (m_prog m) 89), (Z.eqb_spec (m_prog m) 99); cbn [orb]; try lia;
    try reflexivity; unfold wbind; destruct (first_dev devs (suitable c) (upto 6 7)); reflexivity.
Qed.
Lemma orelse_bind {A} (a b : option A) (k : wres (option A)) :
  k = WDone b [] ->
  (let* r := WDone a [] in match r with Some i => wret (Some i) | None => k end) = WDone (orelse a b) [].
Proof. intros ->. destruct a; reflexivity. Qed.
Lemma search_eq devs c lo hi : length devs = 13%nat -> 0 <= lo -> hi < 13 ->
  (let* r := find_dev devs (fun d => isChannelSuitable d c) (upto lo hi) in
   match r with Some i => wret (Some i) | None => find_dev devs
      (fun d => (d_midi d =? c) && negb (isPsgAndIncomingChanIsPercussive d c)) (upto lo hi) end)
  = WDone (search_dev devs c lo hi) [].
Proof.
  intros Hl H1 H2. rewrite find_upto by assumption. apply orelse_bind. apply find_upto; assumption.
Qed.
Lemma specific_eq s c lo hi : length (md_dev s) = 13%nat -> 0 <= lo -> hi < 13 ->
  findDeviceSpecificChannel s c lo hi = WDone (specific_dev s c lo hi) [].
Proof.
  intros Hl H1 H2. unfold findDeviceSpecificChannel, specific_dev. destruct (md_stick s).
  - unfold deviceChannelByMidiChannel, DEV_CHANS. change (13 - 1) with 12.
    rewrite find_upto by (assumption || lia). fold (by_midi (md_dev s) c).
    destruct (by_midi (md_dev s) c) as [i|] eqn:E; [|reflexivity].
    apply first_dev_some in E as (Hi & d & Hd & _). unfold wbind at 1. rewrite Hd, (wget_Some _ _ _ Hd), wbind_ret.
    rewrite !search_eq by (assumption || lia). destruct (vt_eqb _ _); reflexivity.
  - apply search_eq; assumption.
Qed.
Lemma findFree_eq s m c : length (md_dev s) = 13%nat -> zget (md_ch s) c = Some m ->
  findFreeChannel s c = WDone (chosen s m c) [].
Proof.
  intros Hl Hm. unfold findFreeChannel, chosen. rewrite (wget_Some _ _ _ Hm), wbind_ret.
  assert (Hr := device_min_max_range (m_sel m)). destruct (device_min_max (m_sel m)) as [lo hi]; cbn in Hr.
  unfold findFreeMidiAssignedChannel. rewrite find_upto by (assumption || lia). apply orelse_bind.
  destruct (md_dyn s); cbn [negb].
  - unfold findFreePsgChannelForSquareWaveVoices. rewrite (wget_Some _ _ _ Hm), wbind_ret, square_loop_eq by assumption.
    apply orelse_bind. rewrite specific_eq by (assumption || lia). apply orelse_bind.
    unfold findAnyFreeChannel. apply find_upto; lia || assumption.
  - unfold deviceChannelByMidiChannel, DEV_CHANS. apply find_upto; lia || assumption.
Qed.
Lemma chosen_range s m c i : chosen s m c = Some i -> 0 <= i < 13.
Proof.
  unfold chosen. assert (Hr := device_min_max_range (m_sel m)). destruct (device_min_max (m_sel m)) as [lo hi]; cbn in Hr.
  assert (HF : forall p a b j, 0 <= a -> b < 13 -> first_dev (md_dev s) p (upto a b) = Some j -> 0 <= j < 13).
  { intros p a b j Ha Hb H. apply first_dev_some in H. lia. }
  assert (HO : forall a b, (forall j, a = Some j -> 0 <= j < 13) -> (forall j, b = Some j -> 0 <= j < 13) ->
     forall j, orelse a b = Some j -> 0 <= j < 13) by (intros [x|] b Ha Hb j; cbn; [intros E; apply Ha, E|apply Hb]).
  revert i. apply HO; [intros j; apply HF; lia|]. destruct (md_dyn s); [|intros j; apply HF; lia].
  apply HO; [intros j; unfold square_dev; destruct (_ || _); [apply HF; lia|discriminate]|].
  apply HO; [|intros j; apply HF; lia].
  assert (HS : forall a b, 0 <= a -> b < 13 -> forall j, search_dev (md_dev s) c a b = Some j -> 0 <= j < 13)
    by (intros a b Ha Hb; apply HO; intros j; apply HF; lia).
  unfold specific_dev. destruct (md_stick s); [|apply HS; lia].
  destruct (by_midi _ _) as [x|]; [|discriminate]. destruct (zget _ x); [|discriminate].
  destruct (vt_eqb _ _); apply HS; lia.
Qed.

Definition prepared (c p : Z) (d : dev) : dev := d_set_pitch (d_set_cents (d_set_on (d_set_midi d c) true) 0) p.
Definition started (m : mchan) (c p : Z) (d : dev) : dev := synced m (prepared c p d).
Definition start_calls (m : mchan) (c p v : Z) (d : dev) : list dcall :=
  (if (d_midi d =? 9) && negb (c =? 9) then [DProgram (d_ops d) (d_num d) (m_prog m)] else [])
  ++ sync_calls m (prepared c p d)
  ++ [DNoteOn (d_ops d) (d_num d) (pc_pitch (eff m (started m c p d))) (pc_cents (eff m (started m c p d))) v].
Lemma start_note_eq s i c p v d m :
  zget (md_ch s) c = Some m ->
  start_note s i c p v d = WDone (md_set_dev s (zset (md_dev s) i (started m c p d))) (start_calls m c p v d).
Proof.
  intros Hm. unfold start_note, start_calls. apply (wbind_done _ _ tt).
  - unfold reapply_program, PERCUSSION.
    destruct (_ && _); [|reflexivity]. rewrite (wget_Some _ _ _ Hm). reflexivity.
  - cbv zeta. eapply wbind_done; [apply update_from_midi_eq; exact Hm|].
    rewrite <- (app_nil_r [DNoteOn _ _ _ _ _]).
    eapply wbind_done; [apply (note_on_call_eq _ (started m c p d) m v); exact Hm|]. reflexivity.
Qed.

Inductive note_on_result (s : midi) (m : mchan) (c p v : Z) : midi -> list dcall -> Prop :=
| note_dropped :
    tooManyPercussiveNotes s c = true \/ chosen s m c = None \/
    (voice_count c false (md_dev s) = 1 /\ length (keys (m_np m)) = 10%nat) ->
    note_on_result s m c p v s []
| note_glides i d st :
    tooManyPercussiveNotes s c = false -> chosen s m c = Some i -> zget (md_dev s) i = Some d ->
    voice_count c false (md_dev s) = 1 -> stack_ok st -> keys st = keys (m_np m) ++ [p] ->
    m_porta m = true -> keys (m_np m) <> [] ->
    note_on_result s m c p v
      (md_set_dev (md_set_ch s (zset (md_ch s) c (m_set_vel (m_set_np m st) v))) (zset (md_dev s) i (d_set_glide d p))) []
| note_starts_mono i d st :
    tooManyPercussiveNotes s c = false -> chosen s m c = Some i -> zget (md_dev s) i = Some d ->
    voice_count c false (md_dev s) = 1 -> stack_ok st -> keys st = keys (m_np m) ++ [p] ->
    m_porta m = false \/ keys (m_np m) = [] ->
    note_on_result s m c p v
      (md_set_dev (md_set_ch s (zset (md_ch s) c (m_set_vel (m_set_np m st) v)))
         (zset (md_dev s) i (started (m_set_vel (m_set_np m st) v) c p (d_set_glide d 0))))
      (start_calls (m_set_vel (m_set_np m st) v) c p v (d_set_glide d 0))
| note_starts i d :
    tooManyPercussiveNotes s c = false -> chosen s m c = Some i -> zget (md_dev s) i = Some d ->
    voice_count c false (md_dev s) <> 1 ->
    note_on_result s m c p v
      (md_set_dev s (zset (md_dev s) i (started m c p d))) (start_calls m c p v d).

Lemma midi_note_on_eq c p v s m :
  midi_ok s -> is_chan c -> seven p -> v <> 0 -> zget (md_ch s) c = Some m ->
  exists s' o, midi_note_on c p v s = WDone s' o /\ note_on_result s m c p v s' o.
Proof.
  intros Hs Hc Hp Hv Hm. destruct (ok_ch _ _ _ Hs Hm) as [Hmok _].
  assert (Hst : stack_ok (m_np m)) by apply Hmok. assert (Hrep := stack_repr _ Hst).
  unfold midi_note_on. destruct (Z.eqb_spec v 0); [contradiction|].
  destruct (tooManyPercussiveNotes s c) eqn:Et.
  { do 2 eexists. split; [reflexivity|]. apply note_dropped. auto. }
  rewrite (findFree_eq _ m) by (apply Hs || exact Hm). destruct (chosen s m c) as [i|] eqn:Ec.
  2:{ do 2 eexists. split; [reflexivity|]. apply note_dropped. auto. }
  destruct (ok_dev_get s i Hs (chosen_range _ _ _ _ Ec)) as (d & Hd & _).
  unfold wbind at 1. rewrite (wget_Some _ _ _ Hd), wbind_ret, (wget_Some _ _ _ Hm), wbind_ret.
  unfold is_single_voice_channel. destruct (Z.eqb_spec (voice_count c false (md_dev s)) 1) as [E1|E1].
  2:{ rewrite (start_note_eq _ _ _ _ _ _ m Hm). do 2 eexists. split; [reflexivity|]. cbn [app]. apply (note_starts s m c p v i d); auto. }
  rewrite (np_full_ok _ _ Hrep). destruct (Nat.eqb_spec (length (keys (m_np m))) 10) as [Ef|Ef].
  { do 2 eexists. split; [reflexivity|]. apply note_dropped. auto. }
  destruct (of_np_push (m_np m) p Hst Hp) as (st & E & Hst' & Hk).
  assert (Hlen : (length (keys (m_np m)) <= 10)%nat) by (destruct Hrep as (_ & _ & L & _); exact L).
  destruct (Nat.ltb_spec (length (keys (m_np m))) 10); [|lia]. rewrite E. unfold wbind at 1. cbv zeta beta iota.
  assert (Hcnt : note_priority_count st = Z.of_nat (length (keys st))) by (apply np_count_ok, stack_repr, Hst').
  cbn [m_porta m_np m_set_vel m_set_np]. rewrite Hcnt, Hk, app_length. cbn [length].
  destruct (m_porta m && (1 <? Z.of_nat (length (keys (m_np m)) + 1))) eqn:Eg.
  - apply andb_prop in Eg as [G1 G2]. do 2 eexists. split; [reflexivity|].
    apply (note_glides s m c p v i d st); auto. intros K. rewrite K in G2. discriminate.
  - assert (Hm' : zget (md_ch (md_set_ch s (zset (md_ch s) c (m_set_vel (m_set_np m st) v)))) c
                  = Some (m_set_vel (m_set_np m st) v)).
    { cbn. apply zget_zset_same. eapply zget_Some; eassumption. }
    rewrite (start_note_eq _ _ _ _ _ _ _ Hm'). do 2 eexists. split; [reflexivity|].
    apply (note_starts_mono s m c p v i d st); auto. destruct (m_porta m); [right|left; reflexivity].
    destruct (keys (m_np m)); [reflexivity|]. cbn in Eg. lia.
Qed.
