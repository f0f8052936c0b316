From Verif Require Import Base BaseLemmas RingBufModel RingBufSpec RingBufProofs SchedulerModel MidiModel MidiSpec RxModel RxSpec RxProofs SerialModel SerialSpec SerialProofs.
From Verif Require Import DevModel DevSpec AppModel AppSpec AppProofs MachineModel MachineSpec MachineProofs.
Local Notation frames := frames_done.

(** ** What any run has performed *)
Lemma running_snoc r hw mem arr evs e m tr : running r hw mem arr (evs ++ [e]) m tr ->
  exists m0 tr0 o, running r hw mem arr evs m0 tr0 /\ machine_step r e m0 = Done tt m o /\ tr = tr0 ++ o.
Proof.
  intros (Hr & Hm & Ha & a & oa & ob & Ea & E & ->). apply run_machine_snoc in E as (m0 & o1 & o2 & E0 & E1 & ->).
  exists m0, (oa ++ o1), o2. rewrite app_assoc. split; [|split; [exact E1|reflexivity]].
  split; [exact Hr|]. split; [exact Hm|]. split; [exact Ha|]. exists a, oa, o1. split; [exact Ea|]. split; [exact E0|reflexivity].
Qed.
Lemma running_step r hw mem arr evs e m0 tr0 m o : running r hw mem arr evs m0 tr0 -> machine_step r e m0 = Done tt m o ->
  running r hw mem arr (evs ++ [e]) m (tr0 ++ o).
Proof.
  intros (Hr & Hm & Ha & a & oa & ob & Ea & E & ->) E1. split; [exact Hr|]. split; [exact Hm|]. split; [exact Ha|].
  exists a, oa, (ob ++ o). split; [exact Ea|]. split; [exact (run_machine_step _ _ _ _ _ _ _ _ E E1)|]. rewrite app_assoc. reflexivity.
Qed.
Lemma overrun_prefix r hw mem arr evs more : no_overrun r hw mem arr (evs ++ more) -> no_overrun r hw mem arr evs.
Proof. intros H pre b post m tr -> R. apply (H pre b (post ++ more) m tr); [rewrite <- app_assoc; reflexivity|exact R]. Qed.
Lemma prompt_prefix r hw mem arr evs more : prompt r hw mem arr (evs ++ more) -> prompt r hw mem arr evs.
Proof. intros H pre post m tr -> R. apply (H pre (post ++ more) m tr); [rewrite <- app_assoc; reflexivity|exact R]. Qed.

Lemma inv_boot X r hw mem arr m tr : running r hw mem arr [] m tr -> inv_at X r hw mem [] m tr [].
Proof.
  intros (Hr & Hm & Ha & a & oa & ob & Eb & E & ->). cbn in E. injection E as <- <-. rewrite app_nil_r.
  exists [], [], None. split; [reflexivity|]. split; [exact (start_holds arr Ha)|]. split; [reflexivity|]. split.
  - split; [exact Hr|]. split; [exact Hm|]. split; [constructor|exact Eb].
  - split.
    + split; [reflexivity|]. cbn. repeat (split; [lia|]). exists 0. split; [lia|]. split; [lia|reflexivity].
    + intros _. cbn. split; [lia|]. left. auto.
Qed.
Lemma inv_weaken (X Y : Prop) r hw mem evs m tr ops : (Y -> X) -> inv_at X r hw mem evs m tr ops -> inv_at Y r hw mem evs m tr ops.
Proof. intros I (read & wait & st & A & P & R & W & C & Q). exists read, wait, st. repeat (split; [assumption|]). intros y. apply Q, I, y. Qed.

(** Going on from where a run has got to. *)
Theorem machine_goes_on r hw mem arr evs more l rest ops m0 tr0 : Forall msg_ok l -> running r hw mem arr evs m0 tr0 ->
  inv_at (prompt r hw mem arr evs) r hw mem evs m0 tr0 ops -> forall m tr,
  running r hw mem arr (evs ++ more) m tr -> arrived (evs ++ more) ++ rest = stream l -> no_overrun r hw mem arr (evs ++ more) ->
  exists d, inv_at (prompt r hw mem arr (evs ++ more)) r hw mem (evs ++ more) m tr (ops ++ d).
Proof.
  intros Hl H0 I0. revert rest. induction more as [|e more IH] using rev_ind; intros rest m tr H Hs Ho.
  - rewrite app_nil_r in *. exists []. rewrite app_nil_r. destruct H0 as (_ & _ & _ & a & oa & ob & Ea & Eb & E0). destruct H as (_ & _ & _ & a' & oa' & ob' & Ea' & Eb' & E0').
    rewrite Ea in Ea'. injection Ea' as <- <-. rewrite Eb in Eb'. injection Eb' as <- <-. subst. exact I0.
  - rewrite app_assoc in *. apply running_snoc in H as (m1 & tr1 & o & H1 & E & ->).
    destruct (IH (arrived [e] ++ rest) m1 tr1 H1) as (d & I1).
    + rewrite <- Hs, (arrived_app (evs ++ more)), <- app_assoc. reflexivity.
    + exact (overrun_prefix _ _ _ _ _ _ Ho).
    + apply (inv_weaken _ _ _ _ _ _ _ _ _ (prompt_prefix r hw mem arr (evs ++ more) [e])) in I1.
      assert (Hroom : forall b, e = BArrive b -> ring_buf_can_write (sl_ring (mc_port m1)) = true)
        by (intros b ->; exact (Ho (evs ++ more) b [] m1 tr1 eq_refl H1)).
      assert (Hsee : prompt r hw mem arr ((evs ++ more) ++ [e]) -> e = BBlank -> seen_to (mc_sched m1))
        by (intros X ->; exact (X (evs ++ more) [] m1 tr1 eq_refl H1)).
      destruct (inv_step _ r hw mem (evs ++ more) e m1 tr1 m o l rest _ Hl Hs Hroom Hsee I1 E) as (d2 & I2).
      exists (d ++ d2). rewrite (app_assoc ops d d2). exact I2.
Qed.
Lemma running_start r hw mem arr evs m tr : running r hw mem arr evs m tr -> exists m0 tr0, running r hw mem arr [] m0 tr0.
Proof.
  intros (Hr & Hm & Ha & a & oa & ob & Ea & E & ->). exists (machine_start a arr), (oa ++ []). split; [exact Hr|]. split; [exact Hm|]. split; [exact Ha|].
  exists a, oa, []. split; [exact Ea|]. split; reflexivity.
Qed.
Theorem machine_always r hw mem arr evs l rest m tr : Forall msg_ok l ->
  running r hw mem arr evs m tr -> arrived evs ++ rest = stream l -> no_overrun r hw mem arr evs ->
  exists ops, inv_at (prompt r hw mem arr evs) r hw mem evs m tr ops.
Proof.
  intros Hl H Hs Ho. destruct (running_start _ _ _ _ _ _ _ H) as (m0 & tr0 & H0).
  destruct (machine_goes_on r hw mem arr [] evs l rest [] m0 tr0 Hl H0 (inv_boot _ _ _ _ _ _ _ H0) m tr H Hs Ho) as (d & I). exists d. exact I.
Qed.

Lemma holds_caught p q st : holds p q st -> (q = [] <-> serial_read_ready p = false).
Proof. intros H. rewrite (ready_holds _ _ _ H). destruct q; split; congruence. Qed.

Theorem machine_history r hw mem arr evs m tr l rest : running r hw mem arr evs m tr -> Forall msg_ok l -> arrived evs ++ rest = stream l ->
  no_overrun r hw mem arr evs -> at_rest m ->
  exists l1 l2 read wait ops, l = l1 ++ l2 /\ arrived evs = read ++ wait /\ has_read l1 l2 read /\ (wait = [] <-> caught_up m) /\
    history r hw mem ops (mc_app m) tr /\ msgs ops = meanings [] l1 /\ frames_done ops <= blanks evs /\
    (prompt r hw mem arr evs -> frames_done ops = blanks evs - if sc_frame (mc_sched m) =? sc_prev (mc_sched m) then 0 else 1).
Proof.
  intros H Hl Hs Ho Hr. destruct (machine_always r hw mem arr evs l rest m tr Hl H Hs Ho) as (ops & read & wait & st & A & P & R & W & C & Q).
  destruct (decoded l Hl read (wait ++ rest)) as (l1 & l2 & st2 & -> & D & Hd); [rewrite <- Hs, A, <- app_assoc; reflexivity|].
  rewrite R in D. injection D as D _. exists l1, l2, read, wait, ops. split; [reflexivity|]. split; [exact A|]. split; [exact Hd|]. split; [exact (holds_caught _ _ _ P)|].
  unfold performed in W. unfold at_rest in Hr. rewrite Hr in W. split; [exact W|]. split; [exact D|]. split; [apply C|].
  intros X. specialize (Q X). unfold exact_count in Q. rewrite Hr in Q. destruct Q as (B & [(E & F)|(E & F)]).
  - rewrite E, Z.eqb_refl. lia.
  - destruct (Z.eqb_spec (sc_frame (mc_sched m)) (sc_prev (mc_sched m))) as [G|G]; [|lia]. rewrite E in G. unfold u16 in G. lia.
Qed.

Lemma read_all l1 l2 : has_read l1 l2 (stream (l1 ++ l2)) -> l2 = [].
Proof.
  unfold stream. rewrite flat_map_app. intros [(part & E & H)|(l0 & body & -> & _ & E)].
  - apply app_inv_head in E. destruct l2 as [|m l2]; [reflexivity|]. destruct H as (more & N & H). exfalso. cbn [flat_map] in E. rewrite H in E.
    rewrite <- !app_assoc in E. rewrite <- (app_nil_r part) in E at 2. apply app_inv_head in E. apply app_eq_nil in E as [E _]. contradiction.
  - exfalso. rewrite flat_map_app, <- app_assoc in E. apply app_inv_head in E. cbn [flat_map encode] in E. rewrite app_nil_r in E. cbn [Datatypes.app] in E.
    injection E as E. rewrite <- app_assoc in E. rewrite <- (app_nil_r body) in E at 2. apply app_inv_head in E. discriminate.
Qed.

Theorem machine_delivers r hw mem arr evs m tr l : running r hw mem arr evs m tr -> Forall msg_ok l -> arrived evs = stream l ->
  no_overrun r hw mem arr evs -> at_rest m -> caught_up m ->
  exists ops, history r hw mem ops (mc_app m) tr /\ msgs ops = meanings [] l /\ frames_done ops <= blanks evs /\
    (prompt r hw mem arr evs -> frames_done ops = blanks evs - if sc_frame (mc_sched m) =? sc_prev (mc_sched m) then 0 else 1).
Proof.
  intros H Hl Hs Ho Hr Hc. rewrite <- (app_nil_r (arrived evs)) in Hs.
  destruct (machine_history r hw mem arr evs m tr l [] H Hl Hs Ho Hr) as (l1 & l2 & read & wait & ops & -> & A & D & Wt & Hh & M & F & X).
  apply Wt in Hc. subst wait. rewrite app_nil_r in *. rewrite <- A, Hs in D. rewrite (read_all _ _ D), app_nil_r in *. exists ops. auto.
Qed.

(** ** Catching up *)
(** Steps until the main loop asks for the next byte. *)
Definition dist (s : sched) : nat :=
  match sc_pc s with SchedulerModel.PTick => 0 | PCmp => 9 | PDelta => 8 | PCall i _ => 7 - i | PLoad => 2 | PStore _ => 1 end.
(** The waiting bytes and the place of the main loop. *)
Definition tracked (m : machine) (w : nat) : Prop := exists q st, holds (mc_port m) q st /\ length q = w /\ sc_n (mc_sched m) = FRAME_HANDLERS /\
  match sc_pc (mc_sched m) with PCall i _ => (i < FRAME_HANDLERS)%nat | _ => True end.

Lemma tracked_rest m w : tracked m w -> (w + dist (mc_sched m) = 0)%nat -> at_rest m /\ caught_up m.
Proof.
  intros (q & st & H & L & N & I) E. split.
  - unfold at_rest, dist in *. destruct (sc_pc (mc_sched m)); try lia; [reflexivity|]. unfold FRAME_HANDLERS in I. lia.
  - apply (holds_caught _ _ _ H). destruct q; [reflexivity|cbn in L; lia].
Qed.

Lemma track_blank r m w m' o : tracked m w -> machine_step r BBlank m = Done tt m' o -> tracked m' w /\ dist (mc_sched m') = dist (mc_sched m).
Proof. intros (q & st & H & L & N & I) E. cbn in E. injection E as <- _. split; [exists q, st; auto|reflexivity]. Qed.

Lemma track_arrive r m w m' b o : byte_ok b -> tracked m w -> (w < 511)%nat -> machine_step r (BArrive b) m = Done tt m' o ->
  tracked m' (S w) /\ dist (mc_sched m') = dist (mc_sched m).
Proof.
  intros Hb (q & st & H & L & N & I) Hw E. cbn [machine_step] in E. unfold bind, get in E.
  destruct (arrive_holds _ q st b H Hb ltac:(lia)) as (p' & Ea & P'). rewrite Ea in E. cbn in E. injection E as <- _.
  split; [|reflexivity]. exists (q ++ [b]), st. split; [exact P'|]. rewrite app_length. cbn. split; [lia|]. auto.
Qed.

(** A step of the main loop gets nearer to the next byte, or reads it. *)
Lemma track_main r m w m' o : tracked m w -> machine_step r BMain m = Done tt m' o -> exists w', tracked m' w' /\ (w' <= w)%nat /\
  ((0 < w + dist (mc_sched m))%nat -> (w' + dist (mc_sched m') < w + dist (mc_sched m))%nat) /\
  ((w = 0)%nat -> (dist (mc_sched m') <= 9)%nat).
Proof.
  intros (q & st & H & L & N & I) E. destruct m as [a p s]. cbn [mc_app mc_port mc_sched] in *.
  cbn [machine_step] in E. unfold main_step, bind at 1, get in E. cbn [mc_sched] in E. unfold tracked, dist in *.
  destruct (sc_pc s) as [| | |i d| |v] eqn:Ep.
  - unfold rx_step, bind at 1, get in E. cbn [mc_port] in E. rewrite (ready_holds _ _ _ H) in E. destruct q as [|x q].
    + cbn in L. subst w. destruct H as (Pr & Pst & Pv). rewrite Pst in E. destruct st as [t|].
      * cbn in E. injection E as <- _. exists 0%nat. cbn [mc_port mc_sched]. rewrite Ep. split; [exists [], (Some t); repeat split; auto|]. lia.
      * cbn in E. rewrite Ep in E. injection E as <- _. exists 0%nat. cbn [mc_port mc_sched sc_pc sc_n fst]. split; [exists [], None; repeat split; auto|]. lia.
    + assert (Q := poll_holds STARTUP_MIDI_SEQUENCE p x q st H).
      destruct (rx_byte (reset_action STARTUP_MIDI_SEQUENCE) st x) as [ms st'|f] eqn:Eb; [|rewrite Q in E; discriminate].
      destruct Q as (p' & Ep' & Hp'). rewrite Ep' in E. unfold bind, put_port, modify, on_app, lift in E. cbn [mc_app mc_sched mc_port] in E.
      destruct (app_run r (map AMsg ms) a) as [[] a' o'|f] eqn:Er; [|discriminate]. injection E as <- _.
      exists (length q). cbn [mc_port mc_sched]. rewrite Ep. cbn in L. split; [exists q, st'; auto|]. lia.
  - cbn in E. rewrite Ep in E. injection E as <- _. exists w. cbn [mc_port mc_sched fst]. unfold set_pc. cbn [sc_pc sc_n].
    split; [exists q, st; destruct (sc_frame s =? sc_prev s); auto|]. destruct (sc_frame s =? sc_prev s); lia.
  - cbn in E. rewrite Ep in E. injection E as <- _. exists w. cbn [mc_port mc_sched fst]. unfold set_pc. cbn [sc_pc sc_n]. rewrite N.
    unfold next_call, FRAME_HANDLERS. change (0 <? 5)%nat with true. cbv iota. split; [exists q, st; repeat (split; [assumption || reflexivity|]); lia|]. lia.
  - unfold bind, on_app, lift, on_sched, modify in E. cbn [mc_app mc_sched mc_port] in E.
    destruct (frame_handler r i a) as [[] a' o'|f] eqn:Eh; [|discriminate]. injection E as <- _. exists w.
    cbn [mc_port mc_sched sched_step]. rewrite Ep. cbn [fst]. unfold set_pc. cbn [sc_pc sc_n]. rewrite N. unfold next_call, FRAME_HANDLERS in *.
    destruct (Nat.ltb_spec (S i) 5); (split; [exists q, st; repeat (split; [assumption || reflexivity|]); try exact Logic.I; lia|]); lia.
  - cbn in E. rewrite Ep in E. injection E as <- _. exists w. cbn [mc_port mc_sched fst]. unfold set_pc. cbn [sc_pc sc_n]. split; [exists q, st; auto|]. lia.
  - cbn in E. rewrite Ep in E. injection E as <- _. exists w. cbn [mc_port mc_sched fst sc_pc sc_n]. split; [exists q, st; auto|]. lia.
Qed.

Lemma tracked_dist m w : tracked m w -> (dist (mc_sched m) <= 9)%nat.
Proof. intros _. unfold dist. destruct (sc_pc (mc_sched m)); lia. Qed.
Lemma tracked_length m w : tracked m w -> (w <= 511)%nat.
Proof. intros (q & st & ((b & _ & _ & (_ & _ & Ht & Hh & H & _)) & _) & L & _). lia. Qed.

Lemma inv_tracked X r hw mem evs m tr ops : inv_at X r hw mem evs m tr ops -> exists w, tracked m w.
Proof.
  intros (read & wait & st & A & P & R & W & (N & _ & _ & C) & Q). exists (length wait), wait, st. split; [exact P|]. split; [reflexivity|]. split; [exact N|].
  destruct (sc_pc (mc_sched m)); try exact Logic.I. apply C.
Qed.

Lemma run_cons r e evs m m' o : machine_run r (e :: evs) m = Done tt m' o ->
  exists m1 o1 o2, machine_step r e m = Done tt m1 o1 /\ machine_run r evs m1 = Done tt m' o2 /\ o = o1 ++ o2.
Proof. intros E. unfold machine_run in E. cbn [runM] in E. apply bind_inv in E as ([] & m1 & o1 & o2 & E1 & E2 & ->). exists m1, o1, o2. auto. Qed.
Lemma run_one r e evs m m1 o1 m' o2 : machine_step r e m = Done tt m1 o1 -> machine_run r evs m1 = Done tt m' o2 ->
  machine_run r (e :: evs) m = Done tt m' (o1 ++ o2).
Proof. intros E1 E2. unfold machine_run. cbn [runM]. exact (bind_done _ _ _ _ _ _ _ _ _ E1 E2). Qed.

Lemma running_app r hw mem arr evs more m tr : running r hw mem arr (evs ++ more) m tr ->
  exists m0 tr0 o, running r hw mem arr evs m0 tr0 /\ machine_run r more m0 = Done tt m o /\ tr = tr0 ++ o.
Proof.
  revert m tr. induction more as [|e more IH] using rev_ind; intros m tr H.
  - rewrite app_nil_r in H. exists m, tr, []. rewrite app_nil_r. auto.
  - rewrite app_assoc in H. apply running_snoc in H as (m1 & tr1 & o1 & H & E & ->). apply IH in H as (m0 & tr0 & o & H & E0 & ->).
    exists m0, tr0, (o ++ o1). split; [exact H|]. split; [exact (run_machine_step _ _ _ _ _ _ _ _ E0 E)|]. rewrite app_assoc. reflexivity.
Qed.
Lemma running_run r hw mem arr more : forall evs m0 tr0 m o, running r hw mem arr evs m0 tr0 -> machine_run r more m0 = Done tt m o ->
  running r hw mem arr (evs ++ more) m (tr0 ++ o).
Proof.
  induction more as [|e more IH]; intros evs m0 tr0 m o H E.
  - cbn in E. injection E as <- <-. rewrite !app_nil_r. exact H.
  - apply run_cons in E as (m1 & o1 & o2 & E1 & E2 & ->). assert (H1 := running_step _ _ _ _ _ _ _ _ _ _ H E1).
    specialize (IH _ _ _ _ _ H1 E2). rewrite <- !app_assoc in IH. exact IH.
Qed.

Lemma no_arrival e more : arrived (e :: more) = [] -> (e = BBlank \/ e = BMain) /\ arrived more = [].
Proof. destruct e; cbn; [discriminate| |]; auto. Qed.
Lemma overrun_quiet r hw mem arr evs more : no_overrun r hw mem arr evs -> arrived more = [] -> no_overrun r hw mem arr (evs ++ more).
Proof.
  intros H Hm pre b post m tr E R. revert more Hm post E. induction more as [|e more IH] using rev_ind; intros Hm post E.
  - rewrite app_nil_r in E. exact (H pre b post m tr E R).
  - rewrite arrived_app in Hm. apply app_eq_nil in Hm as [Hm He]. destruct (exists_last (l := BArrive b :: post) ltac:(discriminate)) as (q & x & Eq).
    rewrite Eq, !app_assoc in E. apply app_inj_tail in E as [E <-]. destruct q as [|y q].
    + cbn in Eq. injection Eq as <- ->. discriminate.
    + injection Eq as <- ->. exact (IH Hm q E).
Qed.

(** Without new bytes the waiting ones are read, one for every step but nine. *)
Lemma drains r more : forall m w m' o, tracked m w -> arrived more = [] -> machine_run r more m = Done tt m' o -> (w + dist (mc_sched m) <= turns more)%nat ->
  exists pre post m1 o1 o2, more = pre ++ post /\ machine_run r pre m = Done tt m1 o1 /\ machine_run r post m1 = Done tt m' o2 /\ tracked m1 0 /\ at_rest m1 /\ caught_up m1.
Proof.
  induction more as [|e more IH]; intros m w m' o T A E L.
  - exists [], [], m, [], o. unfold turns in L. cbn in L. assert (w = 0%nat) by lia. subst w. split; [reflexivity|]. split; [reflexivity|]. split; [exact E|]. split; [exact T|].
    exact (tracked_rest m 0 T ltac:(lia)).
  - destruct (Nat.eq_dec (w + dist (mc_sched m)) 0) as [Z0|Z0].
    + exists [], (e :: more), m, [], o. assert (w = 0%nat) by lia. subst w. split; [reflexivity|]. split; [reflexivity|]. split; [exact E|]. split; [exact T|].
      exact (tracked_rest m 0 T Z0).
    + apply run_cons in E as (m1 & o1 & o2 & E1 & E2 & ->). apply no_arrival in A as [[->| ->] A].
      * destruct (track_blank _ _ _ _ _ T E1) as (T1 & D1). destruct (IH m1 w m' o2 T1 A E2) as (pre & post & m2 & oa & ob & -> & R1 & R2 & K); [rewrite D1; exact L|].
        exists (BBlank :: pre), post, m2, (o1 ++ oa), ob. split; [reflexivity|]. split; [exact (run_one _ _ _ _ _ _ _ _ E1 R1)|]. auto.
      * destruct (track_main _ _ _ _ _ T E1) as (w' & T1 & _ & D1 & _). destruct (IH m1 w' m' o2 T1 A E2) as (pre & post & m2 & oa & ob & -> & R1 & R2 & K).
        { specialize (D1 ltac:(lia)). unfold turns in *. cbn [filter length] in L. lia. }
        exists (BMain :: pre), post, m2, (o1 ++ oa), ob. split; [reflexivity|]. split; [exact (run_one _ _ _ _ _ _ _ _ E1 R1)|]. auto.
Qed.
Lemma stays_caught r more : forall m m' o, tracked m 0 -> arrived more = [] -> machine_run r more m = Done tt m' o -> tracked m' 0.
Proof.
  induction more as [|e more IH]; intros m m' o T A E; [cbn in E; injection E as <- _; exact T|].
  apply run_cons in E as (m1 & o1 & o2 & E1 & E2 & ->). apply no_arrival in A as [[->| ->] A].
  - destruct (track_blank _ _ _ _ _ T E1) as (T1 & _). exact (IH _ _ _ T1 A E2).
  - destruct (track_main _ _ _ _ _ T E1) as (w' & T1 & Lw & _). replace w' with 0%nat in T1 by lia. exact (IH _ _ _ T1 A E2).
Qed.

Theorem machine_drains r hw mem arr evs more m tr l rest : running r hw mem arr (evs ++ more) m tr -> Forall msg_ok l -> arrived evs ++ rest = stream l ->
  no_overrun r hw mem arr evs -> arrived more = [] -> (520 <= turns more)%nat ->
  caught_up m /\ exists pre post m1 tr1, more = pre ++ post /\ running r hw mem arr (evs ++ pre) m1 tr1 /\ at_rest m1 /\ caught_up m1.
Proof.
  intros H Hl Hs Ho A L. apply running_app in H as (m0 & tr0 & o & H & E & ->).
  destruct (machine_always r hw mem arr evs l rest m0 tr0 Hl H Hs Ho) as (ops & Iv). destruct (inv_tracked _ _ _ _ _ _ _ _ Iv) as (w & T).
  assert (D := tracked_dist _ _ T). assert (W := tracked_length _ _ T).
  destruct (drains r more m0 w m o T A E ltac:(lia)) as (pre & post & m1 & o1 & o2 & -> & R1 & R2 & T1 & K1 & K2).
  rewrite arrived_app in A. apply app_eq_nil in A as [A1 A2]. split.
  - destruct (stays_caught _ _ _ _ _ T1 A2 R2) as (q & st & Hh & Lq & _). apply (holds_caught _ _ _ Hh). destruct q; [reflexivity|discriminate].
  - exists pre, post, m1, (tr0 ++ o1). split; [reflexivity|]. split; [exact (running_run _ _ _ _ _ _ _ _ _ _ H R1)|]. auto.
Qed.

(** ** No byte is lost when the main loop makes a step for every byte, on average *)
Lemma write_room r q : ring_repr r 512 q -> (length q < 511)%nat -> ring_buf_can_write r = true.
Proof.
  intros Hr H. destruct (ring_step_refines r 512 q RCanWrite Hr Logic.I) as (r' & E & _).
  cbn [ring_step fifo_step fst snd] in E. unfold bind, gets, ret in E. change (Z.to_nat (512 - 1)) with 511%nat in E.
  destruct (Nat.ltb_spec (length q) 511); [congruence|lia].
Qed.
Lemma within_app cap a : forall n b, bucket_within cap n (a ++ b) <-> bucket_within cap n a /\ bucket_within cap (fold_left bucket_step a n) b.
Proof. induction a as [|e a IH]; intros n b; cbn [Datatypes.app bucket_within fold_left]; [tauto|]. rewrite IH. tauto. Qed.

Lemma bucket_tracked r hw mem arr evs : Forall byte_ok (arrived evs) -> bucket_within 500 0 evs -> forall m tr, running r hw mem arr evs m tr ->
  exists w, tracked m w /\ (w + dist (mc_sched m) <= 10 + fold_left bucket_step evs 0)%nat.
Proof.
  induction evs as [|e evs IH] using rev_ind; intros Hb Hw m tr H.
  - exists 0%nat. destruct (inv_boot True _ _ _ _ _ _ H) as (read & wait & st & A & P & R & W & (N & _ & _ & C) & Q). cbn in A. symmetry in A. apply app_eq_nil in A as [-> ->].
    destruct H as (_ & _ & _ & a & oa & ob & _ & E & _). cbn in E. injection E as <- _. split; [|cbn; lia]. exists [], st. split; [exact P|]. repeat split.
  - apply running_snoc in H as (m0 & tr0 & o & H & E & ->). rewrite arrived_app in Hb. apply Forall_app in Hb as [Hb He]. apply within_app in Hw as [Hw Hw'].
    destruct (IH Hb Hw m0 tr0 H) as (w & T & L). rewrite fold_left_app. cbn [fold_left]. destruct Hw' as [Hw' _].
    destruct e as [b| |]; cbn [bucket_step] in *.
    + destruct (track_arrive _ _ _ _ _ _ (Forall_inv He) T ltac:(lia) E) as (T1 & D1). exists (S w). split; [exact T1|]. rewrite D1. lia.
    + destruct (track_blank _ _ _ _ _ T E) as (T1 & D1). exists w. split; [exact T1|]. rewrite D1. lia.
    + destruct (track_main _ _ _ _ _ T E) as (w' & T1 & Lw & D1 & D2). exists w'. split; [exact T1|].
      destruct (Nat.eq_dec (w + dist (mc_sched m0)) 0) as [Z0|Z0]; [specialize (D2 ltac:(lia)); lia|]. specialize (D1 ltac:(lia)). lia.
Qed.
Theorem bucket_no_overrun r hw mem arr evs : Forall byte_ok (arrived evs) -> bucket_within 500 0 evs -> no_overrun r hw mem arr evs.
Proof.
  intros Hb Hw pre b post m tr -> H. rewrite arrived_app in Hb. apply Forall_app in Hb as [Hb _]. apply within_app in Hw as [Hw Hw'].
  destruct (bucket_tracked r hw mem arr pre Hb Hw m tr H) as (w & (q & st & P & Lq & _) & L). destruct Hw' as [Hw' _]. cbn [bucket_step] in Hw'.
  apply (write_room _ q (proj1 P)). lia.
Qed.

Theorem machine_messages r hw mem arr evs m tr l rest : running r hw mem arr evs m tr -> Forall msg_ok l -> arrived evs ++ rest = stream l ->
  no_overrun r hw mem arr evs -> at_rest m ->
  exists l1 l2 read wait ops, l = l1 ++ l2 /\ arrived evs = read ++ wait /\ has_read l1 l2 read /\ (wait = [] <-> caught_up m) /\
    history r hw mem ops (mc_app m) tr /\ msgs ops = meanings [] l1.
Proof.
  intros H Hl Hs Ho Hr. destruct (machine_history r hw mem arr evs m tr l rest H Hl Hs Ho Hr) as (l1 & l2 & read & wait & ops & A & B & C & D & E & F & _).
  exists l1, l2, read, wait, ops. split; [exact A|]. split; [exact B|]. split; [exact C|]. split; [exact D|]. split; [exact E|exact F].
Qed.
Theorem machine_frames r hw mem arr evs m tr l rest : running r hw mem arr evs m tr -> Forall msg_ok l -> arrived evs ++ rest = stream l ->
  no_overrun r hw mem arr evs -> at_rest m ->
  exists ops, history r hw mem ops (mc_app m) tr /\ frames_done ops <= blanks evs /\ (prompt r hw mem arr evs -> frames_done ops = blanks evs - pending m).
Proof.
  intros H Hl Hs Ho Hr. destruct (machine_history r hw mem arr evs m tr l rest H Hl Hs Ho Hr) as (l1 & l2 & read & wait & ops & A & B & C & D & E & F & G).
  exists ops. auto.
Qed.
Theorem machine_messages_all r hw mem arr evs l m tr : received r hw mem arr evs l m tr -> exists ops, history r hw mem ops (mc_app m) tr /\ msgs ops = meanings [] l.
Proof.
  intros (H & Hl & Hs & Ho & Hr & Hc). destruct (machine_delivers r hw mem arr evs m tr l H Hl Hs Ho Hr Hc) as (ops & Hh & M & _). eauto.
Qed.
