From Verif Require Import Base BaseLemmas RingBufModel RingBufSpec RingBufProofs SchedulerModel PsgModel PsgSpec MidiModel MidiSpec RxModel RxSpec RxProofs SerialModel SerialSpec SerialProofs.
From Verif Require Import DevModel DevSpec AppModel AppSpec AppProofs LibraryProofs SoundSpec SongSpec SongProofs SongNoteProofs SongPlayProofs SongReleaseProofs.
From Verif Require Import MachineModel MachineSpec MachineProofs MachineRunProofs MachineWireProofs MachineNoteProofs.

Lemma running_same r hw mem arr evs m tr m' tr' : running r hw mem arr evs m tr -> running r hw mem arr evs m' tr' -> m = m' /\ tr = tr'.
Proof.
  intros (_ & _ & _ & a & oa & ob & Ea & Eb & ->) (_ & _ & _ & a' & oa' & ob' & Ea' & Eb' & ->). rewrite Ea in Ea'. injection Ea' as <- <-. rewrite Eb in Eb'. injection Eb' as <- <-. auto.
Qed.
Lemma count_pending m V F : exact_count (mc_sched m) V F -> at_rest m -> F = V - pending m.
Proof.
  unfold exact_count, at_rest, pending. intros H E. rewrite E in H. destruct H as (B & [(X & Y)|(X & Y)]).
  - rewrite X, Z.eqb_refl. lia.
  - destruct (Z.eqb_spec (sc_frame (mc_sched m)) (sc_prev (mc_sched m))) as [G|G]; [|lia]. rewrite X in G. unfold u16 in G. lia.
Qed.

(** The step that reads a byte. *)
Lemma reading_step r m q st m' o x : at_rest m -> holds (mc_port m) (x :: q) st -> machine_step r BMain m = Done tt m' o ->
  mc_sched m' = mc_sched m /\ exists st', holds (mc_port m') q st'.
Proof.
  intros Hr P E. cbn [machine_step] in E. unfold main_step, bind at 1, get in E. unfold at_rest in Hr. rewrite Hr in E.
  unfold rx_step, bind at 1, get in E. rewrite (ready_holds _ _ _ P) in E. assert (Q := poll_holds STARTUP_MIDI_SEQUENCE (mc_port m) x q st P).
  destruct (rx_byte (reset_action STARTUP_MIDI_SEQUENCE) st x) as [ms st'|f] eqn:Eb; [|rewrite Q in E; discriminate].
  destruct Q as (p' & Ep' & Hp'). rewrite Ep' in E. unfold bind, put_port, modify, on_app, lift in E. cbn [mc_app mc_sched mc_port] in E.
  destruct (app_run r (map AMsg ms) (mc_app m)) as [[] a' o'|f] eqn:Er; [|discriminate]. injection E as <- _. cbn. eauto.
Qed.

(** Reading the last byte of [x] performs [x], between two frames. *)
Lemma completed r hw mem arr evs l x m tr ops later : completes_with r hw mem arr evs l x m -> running r hw mem arr evs m tr ->
  Forall msg_ok (l ++ x :: later) -> opens x -> no_overrun r hw mem arr evs -> prompt r hw mem arr evs ->
  inv_at (prompt r hw mem arr evs) r hw mem evs m tr ops ->
  msgs ops = meanings [] l /\ frames_done ops = blanks evs - pending m /\
  exists m' tr', running r hw mem arr (evs ++ [BMain]) m' tr' /\ at_rest m' /\ pending m' = pending m /\
    inv_at (prompt r hw mem arr (evs ++ [BMain])) r hw mem (evs ++ [BMain]) m' tr' (ops ++ map AMsg (meaning [] x)).
Proof.
  intros (Ea & Hr & Hc & tr1 & m' & tr' & H1 & H' & Hc') H Hl Hx Ho Hp Iv. clear tr1 H1.
  replace (l ++ x :: later) with ((l ++ [x]) ++ later) in Hl by (rewrite <- app_assoc; reflexivity). apply Forall_app in Hl as [Hl _].
  assert (Ho' : no_overrun r hw mem arr (evs ++ [BMain])) by (apply overrun_quiet; [exact Ho|reflexivity]).
  assert (Hp' : prompt r hw mem arr (evs ++ [BMain])).
  { intros pre post m0 tr0 E R. destruct post as [|y post] using rev_ind.
    - apply app_inj_tail in E as [_ E]. discriminate.
    - clear IHpost. assert (E' : evs ++ [BMain] = (pre ++ BBlank :: post) ++ [y]) by (rewrite E, <- app_assoc; reflexivity). apply app_inj_tail in E' as [E' _]. exact (Hp pre post m0 tr0 E' R). }
  assert (Ea' : arrived (evs ++ [BMain]) ++ [] = stream (l ++ [x])) by (rewrite arrived_app, Ea, !app_nil_r; reflexivity).
  assert (Ea0 : arrived evs ++ [] = stream (l ++ [x])) by (rewrite app_nil_r; exact Ea).
  destruct (machine_goes_on r hw mem arr evs [BMain] (l ++ [x]) [] ops m tr Hl H Iv m' tr' H' Ea' Ho') as (d & Iv').
  assert (Iv0 := Iv). destruct Iv0 as (read & wait & st & A & P & R & W & C & X). specialize (X Hp).
  destruct wait as [|b q]; [exfalso; apply Hc, (holds_caught _ _ _ P); reflexivity|].
  assert (St := H'). apply running_snoc in St as (m0 & tr0 & o & H0 & E & ->). destruct (running_same _ _ _ _ _ _ _ _ _ H H0) as [<- <-]. clear H0.
  destruct (reading_step r m q st m' o b Hr P E) as (Es & st' & P').
  assert (q = []) by (apply (holds_caught _ _ _ P'), Hc'). subst q.
  assert (Hr' : at_rest m') by (unfold at_rest in *; rewrite Es; exact Hr).
  assert (Hpe : pending m' = pending m) by (unfold pending; rewrite Es; reflexivity).
  (* what has been read before *)
  assert (M0 : msgs ops = meanings [] l).
  { destruct (exists_last (l := encode x)) as (part & z & Ex); [destruct x; discriminate|].
    assert (Er : read = stream l ++ part).
    { rewrite A in Ea. unfold stream in Ea. rewrite flat_map_app in Ea. cbn [flat_map] in Ea. rewrite app_nil_r, Ex, app_assoc in Ea. apply app_inj_tail in Ea as [Ea _]. exact Ea. }
    apply Forall_app in Hl as [Hl0 Hx0]. apply Forall_inv in Hx0.
    assert (S : receive [] None (stream l) = Ran (meanings [] l) None) by exact (c03 [] l (conj (Forall_nil _) (Forall_nil _)) Hl0).
    destruct part as [|y part]; [exfalso; apply (f_equal (@length Z)) in Ex; destruct x; cbn [opens] in Hx; try contradiction; cbn [encode length] in Ex; rewrite ?app_length in Ex; cbn in Ex; lia|].
    destruct (opened_part (reset_action []) x (y :: part) [z] Hx0 Hx ltac:(discriminate) ltac:(discriminate) Ex) as (t & Et).
    unfold receive in *. rewrite Er, rx_run_app, S, Et in R. cbn [after] in R. injection R as R _. rewrite app_nil_r in R. symmetry. exact R. }
  assert (F0 := count_pending m _ _ X Hr).
  split; [exact M0|]. split; [exact F0|]. exists m', (tr ++ o). split; [exact H'|]. split; [exact Hr'|]. split; [exact Hpe|].
  assert (Ed : d = map AMsg (meaning [] x)).
  { destruct Iv' as (read' & wait' & st2 & A' & P2 & R' & _ & _ & X'). specialize (X' Hp'). assert (F1 := count_pending m' _ _ X' Hr').
    rewrite blanks_app, frames_app in F1. cbn [blanks] in F1. assert (Fd : frames_done d = 0) by lia.
    assert (wait' = []) by (apply (holds_caught _ _ _ P2), Hc'). subst wait'. rewrite app_nil_r in A'. rewrite <- A' in R'. rewrite app_nil_r in Ea'. rewrite Ea' in R'.
    assert (S : receive [] None (stream (l ++ [x])) = Ran (meanings [] (l ++ [x])) None) by exact (c03 [] (l ++ [x]) (conj (Forall_nil _) (Forall_nil _)) Hl).
    rewrite S in R'. injection R' as R' _. rewrite msgs_app, meanings_app, M0 in R'. apply app_inv_head in R'.
    rewrite (all_msgs d Fd), <- R'. cbn. rewrite app_nil_r. reflexivity. }
  rewrite <- Ed. exact Iv'.
Qed.

Lemma frames_same ops : frames ops = frames_done ops.
Proof. induction ops as [|[m|] t IH]; cbn [frames frames_done]; lia. Qed.
Lemma told_msgs before l : msgs before = meanings [] l -> msgs before = msgs (told l).
Proof. intros ->. unfold told. rewrite msgs_map. reflexivity. Qed.

(** The specifications only depend on the messages. *)
Lemma msgs_cut ops a x b : msgs ops = a ++ x :: b -> exists a' b', ops = a' ++ AMsg x :: b' /\ msgs a' = a /\ msgs b' = b.
Proof.
  revert a. induction ops as [|[m|] ops IH]; intros a H; [symmetry in H; apply app_eq_nil in H as [_ H]; discriminate| |].
  - cbn [msgs flat_map Datatypes.app] in H. destruct a as [|y a]; cbn [Datatypes.app] in H.
    + injection H as -> H. exists [], ops. auto.
    + injection H as -> H. destruct (IH a H) as (a' & b' & -> & A & B). exists (AMsg y :: a'), b'. split; [reflexivity|]. split; [|exact B]. cbn [msgs flat_map Datatypes.app]. f_equal. exact A.
  - cbn [msgs flat_map Datatypes.app] in H. destruct (IH a H) as (a' & b' & -> & A & B). exists (AFrame :: a'), b'. split; [reflexivity|]. split; [exact A|exact B].
Qed.
Lemma envelope_msgs r before l c env : msgs before = meanings [] l -> voice_envelope r (told l) c env -> voice_envelope r before c env.
Proof.
  intros B [(a & e & b & E & W & Hb & He)|(W & E)].
  - left. assert (M : msgs before = msgs a ++ upload e :: msgs b).
    { rewrite B. replace (meanings [] l) with (msgs (told l)) by (unfold told; apply msgs_map). rewrite E, msgs_app. reflexivity. }
    destruct (msgs_cut _ _ _ _ M) as (a' & b' & -> & A & B'). exists a', e, b'. split; [reflexivity|]. split; [|auto]. apply without_msgs. rewrite B'. apply without_msgs. exact W.
  - right. split; [exact (without_told _ _ l B W)|]. rewrite settings_msgs, B. rewrite message_told in E. exact E.
Qed.
Lemma undisturbed_msgs c more l : msgs more = meanings [] l -> undisturbed c (told l) -> undisturbed c more.
Proof. intros B H m Hm. apply H. apply in_msgs. unfold told. rewrite msgs_map, <- B. apply in_msgs, Hm. Qed.
Lemma in_range_msgs ops l c p : msgs ops = meanings [] l -> in_range (told l) c p -> in_range ops c p.
Proof. intros B. unfold in_range. rewrite message_told, bent_msgs, pitched_msgs, B. auto. Qed.
Lemma note_sounds_msgs r ops l tr n c p v b : msgs ops = meanings [] l -> note_sounds r ops tr n c p v b -> note_sounds r (told l) tr n c p v b.
Proof. intros B. unfold note_sounds. rewrite message_told, settings_msgs, pitched_msgs, B. auto. Qed.

Lemma static_note r hw mem before l c p v : msgs before = meanings [] l -> wire_psg l c p v -> psg_note r hw mem before c p v (c - 6).
Proof.
  intros B (Hc & Hv & W1 & W2 & W3 & W4 & Hn & Hb & Hx). assert (W : forall P, without P (told l) -> without P before) by (intros P; exact (without_told P before l B)).
  split; [unfold is_psg; lia|]. split; [exact Hv|]. split; [left; split; [lia|]; split; [exact (W _ W1)|]; rewrite held_msgs, B; exact Hn|].
  split; [exact (W _ W2)|]. split; [exact (W _ W3)|]. split; [rewrite tuned_msgs; apply no_porta; intros m Hm; apply (W _ W4), in_msgs, Hm|].
  rewrite bent_msgs, pitched_msgs, B. auto.
Qed.

(** What a run has performed since a message was read. *)
Lemma since r hw mem arr evs l x more l2 m1 m tr : completes_with r hw mem arr evs l x m1 -> opens x ->
  received r hw mem arr (evs ++ BMain :: more) (l ++ x :: l2) m tr -> prompt r hw mem arr (evs ++ BMain :: more) ->
  exists before after, history r hw mem (before ++ map AMsg (meaning [] x) ++ after) (mc_app m) tr /\
    msgs before = meanings [] l /\ msgs after = meanings [] l2 /\ frames_done after = blanks more + pending m1 - pending m.
Proof.
  intros Hcw Hx (H & Hl & Hs & Ho & Hr & Hc) Hp. assert (Hcw' := Hcw). destruct Hcw' as (Ea & _ & _ & tr1 & _ & _ & H1 & _).
  assert (Ho1 := overrun_prefix _ _ _ _ _ _ Ho). assert (Hp1 := prompt_prefix _ _ _ _ _ _ Hp).
  assert (Hs1 : arrived evs ++ stream l2 = stream (l ++ x :: l2)) by (rewrite Ea; unfold stream; rewrite !flat_map_app; cbn [flat_map]; rewrite app_nil_r, <- app_assoc; reflexivity).
  destruct (machine_always r hw mem arr evs _ _ m1 tr1 Hl H1 Hs1 Ho1) as (before & Iv).
  destruct (completed r hw mem arr evs l x m1 tr1 before l2 Hcw H1 Hl Hx Ho1 Hp1 Iv) as (Mb & Fb & m' & tr' & H' & Hr' & Hpe & Iv').
  replace (evs ++ BMain :: more) with ((evs ++ [BMain]) ++ more) in * by (rewrite <- app_assoc; reflexivity).
  assert (Hs' : arrived ((evs ++ [BMain]) ++ more) ++ [] = stream (l ++ x :: l2)) by (rewrite app_nil_r; exact Hs).
  destruct (machine_goes_on r hw mem arr (evs ++ [BMain]) more _ [] _ m' tr' Hl H' Iv' m tr H Hs' Ho) as (after & read & wait & st & A & P & R & W & C & X).
  specialize (X Hp). exists before, after. rewrite <- app_assoc in W, X, R. unfold performed in W. unfold at_rest in Hr. rewrite Hr in W. split; [exact W|]. split; [exact Mb|].
  assert (F := count_pending m _ _ X Hr). rewrite !blanks_app, !frames_app, frames_map, Fb in F. cbn [blanks] in F. split; [|lia].
  assert (wait = []) by (apply (holds_caught _ _ _ P), Hc). subst wait. rewrite app_nil_r in A. rewrite <- A, Hs in R.
  assert (S : receive [] None (stream (l ++ x :: l2)) = Ran (meanings [] (l ++ x :: l2)) None) by exact (c03 [] _ (conj (Forall_nil _) (Forall_nil _)) Hl).
  rewrite S in R. injection R as R _. rewrite !msgs_app, msgs_map, Mb, meanings_app in R. apply app_inv_head in R. cbn [meanings flat_map] in R. apply app_inv_head in R. symmetry. exact R.
Qed.

Theorem wire_held_envelope r hw mem arr evs l c p v more l2 m1 m tr pre body post junk :
  completes_with r hw mem arr evs l (NoteOn c p v) m1 -> wire_psg l c p v ->
  received r hw mem arr (evs ++ BMain :: more) (l ++ NoteOn c p v :: l2) m tr -> prompt r hw mem arr (evs ++ BMain :: more) ->
  undisturbed c (told l2) -> in_range (told (l ++ NoteOn c p v :: l2)) c p ->
  voice_envelope r (told l) c (loop_env pre body post junk) -> Forall data_byte pre -> Forall data_byte body -> Forall data_byte post -> body <> [] ->
  note_sounds r (told (l ++ NoteOn c p v :: l2)) tr (c - 6) c p v (PsgSpec.held pre body (blanks more + pending m1 - pending m)).
Proof.
  intros Hcw Hw H Hp Hu Hr He D1 D2 D3 Hb.
  destruct (since r hw mem arr evs l (NoteOn c p v) more l2 m1 m tr Hcw Logic.I H Hp) as (before & after & Hh & Mb & Ma & F).
  change (before ++ map AMsg (meaning [] (NoteOn c p v)) ++ after) with (before ++ AMsg (MNoteOn c p v) :: after) in Hh.
  assert (M : msgs (before ++ AMsg (MNoteOn c p v) :: after) = meanings [] (l ++ NoteOn c p v :: l2)) by (rewrite msgs_app, meanings_app, Mb; cbn [msgs meanings flat_map meaning Datatypes.app]; f_equal; f_equal; exact Ma).
  apply (note_sounds_msgs _ _ _ _ _ _ _ _ _ M). rewrite <- F, <- frames_same.
  apply (note_held r hw mem before c p v (c - 6) after (mc_app m) tr pre body post junk); try assumption.
  - exact (static_note _ _ _ _ l _ _ _ Mb Hw).
  - exact (undisturbed_msgs _ _ l2 Ma Hu).
  - exact (in_range_msgs _ _ _ _ M Hr).
  - exact (envelope_msgs _ _ l _ _ Mb He).
Qed.
Theorem wire_once_envelope r hw mem arr evs l c p v more l2 m1 m tr pre junk :
  completes_with r hw mem arr evs l (NoteOn c p v) m1 -> wire_psg l c p v ->
  received r hw mem arr (evs ++ BMain :: more) (l ++ NoteOn c p v :: l2) m tr -> prompt r hw mem arr (evs ++ BMain :: more) ->
  undisturbed c (told l2) -> in_range (told (l ++ NoteOn c p v :: l2)) c p ->
  voice_envelope r (told l) c (pre ++ 255 :: junk) -> Forall data_byte pre ->
  note_sounds r (told (l ++ NoteOn c p v :: l2)) tr (c - 6) c p v (once pre (blanks more + pending m1 - pending m)).
Proof.
  intros Hcw Hw H Hp Hu Hr He D1.
  destruct (since r hw mem arr evs l (NoteOn c p v) more l2 m1 m tr Hcw Logic.I H Hp) as (before & after & Hh & Mb & Ma & F).
  change (before ++ map AMsg (meaning [] (NoteOn c p v)) ++ after) with (before ++ AMsg (MNoteOn c p v) :: after) in Hh.
  assert (M : msgs (before ++ AMsg (MNoteOn c p v) :: after) = meanings [] (l ++ NoteOn c p v :: l2)) by (rewrite msgs_app, meanings_app, Mb; cbn [msgs meanings flat_map meaning Datatypes.app]; f_equal; f_equal; exact Ma).
  apply (note_sounds_msgs _ _ _ _ _ _ _ _ _ M). rewrite <- F, <- frames_same.
  apply (note_once r hw mem before c p v (c - 6) after (mc_app m) tr pre junk); try assumption.
  - exact (static_note _ _ _ _ l _ _ _ Mb Hw).
  - exact (undisturbed_msgs _ _ l2 Ma Hu).
  - exact (in_range_msgs _ _ _ _ M Hr).
  - exact (envelope_msgs _ _ l _ _ Mb He).
Qed.

(** ** The release *)
Lemma lets_go_msgs ops l c p n y : msgs ops = meanings [] l -> lets_go (told l) c p n y -> lets_go ops c p n y.
Proof.
  intros B [H|(H & Hc & W & Hq)]; [left; exact H|right]. split; [exact H|]. split; [exact Hc|]. split; [exact (without_told _ _ l B W)|].
  rewrite message_told in Hq. rewrite held_msgs, B. exact Hq.
Qed.
Lemma left_alone_msgs ops l after l3 c n : msgs ops = meanings [] l -> msgs after = meanings [] l3 -> left_alone (told l) (told l3) c n -> left_alone ops after c n.
Proof.
  intros B A (H & K). assert (T : forall m, In (AMsg m) after -> In (AMsg m) (told l3)) by (intros m Hm; apply in_msgs; unfold told; rewrite msgs_map, <- A; apply in_msgs, Hm).
  split; [intros m Hm; exact (H m (T m Hm))|]. destruct K as [(Hc & W)|K]; [left; split; [exact Hc|exact (without_told _ _ l B W)]|right].
  intros a q v Hin. exact (K a q v (T _ Hin)).
Qed.

Lemma since_two r hw mem arr evs l x mid l2 y more l3 m1 m2 m tr : completes_with r hw mem arr evs l x m1 -> opens x ->
  completes_with r hw mem arr (evs ++ BMain :: mid) (l ++ x :: l2) y m2 -> opens y ->
  received r hw mem arr (evs ++ BMain :: mid ++ BMain :: more) (l ++ x :: l2 ++ y :: l3) m tr -> prompt r hw mem arr (evs ++ BMain :: mid ++ BMain :: more) ->
  exists before between after, history r hw mem (before ++ map AMsg (meaning [] x) ++ between ++ map AMsg (meaning [] y) ++ after) (mc_app m) tr /\
    msgs before = meanings [] l /\ msgs between = meanings [] l2 /\ msgs after = meanings [] l3 /\
    frames_done between = blanks mid + pending m1 - pending m2 /\ frames_done after = blanks more + pending m2 - pending m.
Proof.
  intros Hc1 Hx Hc2 Hy (H & Hl & Hs & Ho & Hr & Hc) Hp.
  replace (evs ++ BMain :: mid ++ BMain :: more) with ((evs ++ BMain :: mid) ++ BMain :: more) in * by (rewrite <- app_assoc; reflexivity).
  replace (l ++ x :: l2 ++ y :: l3) with ((l ++ x :: l2) ++ y :: l3) in * by (rewrite <- app_assoc; reflexivity).
  assert (Hc1' := Hc1). destruct Hc1' as (Ea1 & _ & _ & tr1 & _ & _ & H1 & _). assert (Hc2' := Hc2). destruct Hc2' as (Ea2 & Hr2 & _ & tr2 & _ & _ & H2 & _).
  assert (Ho2 := overrun_prefix _ _ _ _ _ _ Ho). assert (Hp2 := prompt_prefix _ _ _ _ _ _ Hp).
  assert (Ho1 := overrun_prefix _ _ _ _ _ _ Ho2). assert (Hp1 := prompt_prefix _ _ _ _ _ _ Hp2).
  assert (Hs1 : arrived evs ++ stream (l2 ++ y :: l3) = stream ((l ++ x :: l2) ++ y :: l3)).
  { rewrite Ea1. unfold stream. rewrite <- flat_map_app. f_equal. rewrite <- !app_assoc. reflexivity. }
  destruct (machine_always r hw mem arr evs _ _ m1 tr1 Hl H1 Hs1 Ho1) as (before & Iv).
  assert (Hl1 : Forall msg_ok (l ++ x :: l2 ++ y :: l3)) by (replace (l ++ x :: l2 ++ y :: l3) with ((l ++ x :: l2) ++ y :: l3) by (rewrite <- app_assoc; reflexivity); exact Hl).
  destruct (completed r hw mem arr evs l x m1 tr1 before _ Hc1 H1 Hl1 Hx Ho1 Hp1 Iv) as (Mb & Fb & m1' & tr1' & H1' & Hr1' & Hpe1 & Iv1).
  assert (Es2 : (evs ++ [BMain]) ++ mid = evs ++ BMain :: mid) by (rewrite <- app_assoc; reflexivity).
  assert (Hs2 : arrived ((evs ++ [BMain]) ++ mid) ++ stream l3 = stream ((l ++ x :: l2) ++ y :: l3)).
  { rewrite Es2, Ea2. unfold stream. rewrite <- flat_map_app. f_equal. rewrite <- !app_assoc. reflexivity. }
  assert (H2' := H2). rewrite <- Es2 in H2', Ho2. destruct (machine_goes_on r hw mem arr (evs ++ [BMain]) mid _ _ _ m1' tr1' Hl H1' Iv1 m2 tr2 H2' Hs2 Ho2) as (between & Iv2).
  rewrite Es2 in Iv2, Ho2.
  destruct (completed r hw mem arr _ _ y m2 tr2 _ _ Hc2 H2 Hl Hy Ho2 Hp2 Iv2) as (M2 & F2 & m2' & tr2' & H2'' & Hr2' & Hpe2 & Iv3).
  assert (Es3 : ((evs ++ BMain :: mid) ++ [BMain]) ++ more = (evs ++ BMain :: mid) ++ BMain :: more) by (rewrite <- app_assoc; reflexivity).
  assert (Hs3 : arrived (((evs ++ BMain :: mid) ++ [BMain]) ++ more) ++ [] = stream ((l ++ x :: l2) ++ y :: l3)) by (rewrite Es3, app_nil_r; exact Hs).
  rewrite <- Es3 in H, Ho. destruct (machine_goes_on r hw mem arr _ more _ [] _ m2' tr2' Hl H2'' Iv3 m tr H Hs3 Ho) as (after & read & wait & st & A & P & R & W & C & X).
  rewrite Es3 in X. specialize (X Hp). exists before, between, after.
  assert (F := count_pending m _ _ X Hr). rewrite !frames_app, !frames_map in F. rewrite !frames_app, !frames_map in F2. rewrite !blanks_app in F. rewrite !blanks_app in F2. cbn [blanks] in F, F2. rewrite Fb in F2.
  unfold performed in W. unfold at_rest in Hr. rewrite Hr in W. rewrite <- !app_assoc in W. split; [exact W|]. split; [exact Mb|].
  rewrite !msgs_app, msgs_map, Mb, meanings_app in M2. rewrite <- !app_assoc in M2. apply app_inv_head in M2. cbn [meanings flat_map] in M2. apply app_inv_head in M2.
  split; [exact M2|]. split; [|split; lia].
  assert (wait = []) by (apply (holds_caught _ _ _ P), Hc). subst wait. rewrite app_nil_r in A. rewrite app_nil_r in Hs3. rewrite <- A, Hs3 in R.
  assert (S : receive [] None (stream ((l ++ x :: l2) ++ y :: l3)) = Ran (meanings [] ((l ++ x :: l2) ++ y :: l3)) None) by exact (c03 [] _ (conj (Forall_nil _) (Forall_nil _)) Hl).
  rewrite S in R. injection R as R _. rewrite !msgs_app, !msgs_map, Mb, M2, !meanings_app in R. cbn [meanings flat_map] in R.
  rewrite <- !app_assoc in R. apply app_inv_head in R. apply app_inv_head in R. apply app_inv_head in R. apply app_inv_head in R. symmetry. exact R.
Qed.

Theorem wire_released_envelope r hw mem arr evs l c p v mid l2 off y more l3 m1 m2 m tr pre body post junk :
  completes_with r hw mem arr evs l (NoteOn c p v) m1 -> wire_psg l c p v ->
  completes_with r hw mem arr (evs ++ BMain :: mid) (l ++ NoteOn c p v :: l2) off m2 -> meaning [] off = [y] -> opens off ->
  received r hw mem arr (evs ++ BMain :: mid ++ BMain :: more) (l ++ NoteOn c p v :: l2 ++ off :: l3) m tr -> prompt r hw mem arr (evs ++ BMain :: mid ++ BMain :: more) ->
  undisturbed c (told l2) -> in_range (told (l ++ NoteOn c p v :: l2)) c p ->
  lets_go (told (l ++ NoteOn c p v :: l2)) c p (c - 6) y -> left_alone (told (l ++ NoteOn c p v :: l2)) (told l3) c (c - 6) ->
  voice_envelope r (told l) c (loop_env pre body post junk) -> Forall data_byte pre -> Forall data_byte body -> Forall data_byte post -> body <> [] ->
  let down := blanks mid + pending m1 - pending m2 in
  let up := blanks more + pending m2 - pending m in
  note_sounds r (told (l ++ NoteOn c p v :: l2)) tr (c - 6) c p v (PsgSpec.released pre body post down up) /\
  (len body + len post <= up -> chip_att att_at_boot tr (c - 6) = 15).
Proof.
  intros Hc1 Hw Hc2 Hy Ho2 H Hp Hu Hr Hg Hleft He D1 D2 D3 Hb down up.
  destruct (since_two r hw mem arr evs l (NoteOn c p v) mid l2 off more l3 m1 m2 m tr Hc1 Logic.I Hc2 Ho2 H Hp) as (before & between & after & Hh & Mb & Mi & Ma & Fi & Fa).
  rewrite Hy in Hh.
  replace (before ++ map AMsg (meaning [] (NoteOn c p v)) ++ between ++ map AMsg [y] ++ after) with ((before ++ AMsg (MNoteOn c p v) :: between) ++ AMsg y :: after) in Hh by (rewrite <- app_assoc; reflexivity).
  assert (M : msgs (before ++ AMsg (MNoteOn c p v) :: between) = meanings [] (l ++ NoteOn c p v :: l2)) by (rewrite msgs_app, meanings_app, Mb; cbn [msgs meanings flat_map meaning Datatypes.app]; f_equal; f_equal; exact Mi).
  assert (N := static_note r hw mem _ l _ _ _ Mb Hw). assert (U := undisturbed_msgs _ _ l2 Mi Hu). assert (R := in_range_msgs _ _ _ _ M Hr). assert (G := lets_go_msgs _ _ _ _ _ _ M Hg).
  assert (L := left_alone_msgs _ _ _ _ _ _ M Ma Hleft). assert (V := envelope_msgs _ _ l _ _ Mb He).
  split.
  - apply (note_sounds_msgs _ _ _ _ _ _ _ _ _ M). unfold down, up. rewrite <- Fi, <- Fa, <- !frames_same.
    exact (note_released r hw mem before c p v (c - 6) between y after (mc_app m) tr pre body post junk N Hh U R G L V D1 D2 D3 Hb).
  - intros Hup. unfold up in Hup. rewrite <- Fa, <- frames_same in Hup.
    exact (note_fades r hw mem before c p v (c - 6) between y after (mc_app m) tr pre body post junk N Hh U R G L V D1 D2 D3 Hb Hup).
Qed.
