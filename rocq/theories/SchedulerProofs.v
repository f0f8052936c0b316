From Verif Require Import Base BaseLemmas SchedulerModel SchedulerSpec.

Lemma vsyncs_app a b : vsyncs (a ++ b) = vsyncs a + vsyncs b.
Proof. unfold vsyncs. induction a as [|o a IH]; cbn [app fold_right]; [lia|]. destruct o; lia. Qed.
Lemma inside_app a b : vsyncs_inside (a ++ b) = vsyncs_inside a + vsyncs_inside b.
Proof.
  unfold vsyncs_inside. induction a as [|o a IH]; cbn [app fold_right]; [lia|].
  destruct o as [[]| |]; lia.
Qed.
Lemma delivered_app h a b : delivered_to h (a ++ b) = delivered_to h a + delivered_to h b.
Proof.
  unfold delivered_to. induction a as [|o a IH]; cbn [app fold_right]; [lia|].
  destruct o as [| i d |]; try lia. destruct (Nat.eqb i h); lia.
Qed.
Lemma vsyncs_1 o : vsyncs [o] = match o with OVsync _ => 1 | _ => 0 end.
Proof. destruct o; reflexivity. Qed.
Lemma inside_1 o : vsyncs_inside [o] = match o with OVsync true => 1 | _ => 0 end.
Proof. destruct o as [[]| |]; reflexivity. Qed.
Lemma delivered_1 h o : delivered_to h [o] = match o with OCall i d => if Nat.eqb i h then d else 0 | _ => 0 end.
Proof. destruct o; unfold delivered_to; cbn; try reflexivity. destruct (Nat.eqb i h); lia. Qed.
Lemma calls_1 o : calls [o] = match o with OCall i _ => [i] | _ => [] end.
Proof. destruct o; reflexivity. Qed.
Global Arguments vsyncs : simpl never.
Global Arguments vsyncs_inside : simpl never.
Global Arguments delivered_to : simpl never.
Global Arguments calls : simpl never.
Lemma calls_app a b : calls (a ++ b) = calls a ++ calls b.
Proof. unfold calls. apply flat_map_app. Qed.

Definition cong (a b : Z) : Prop := a mod 65536 = b mod 65536.

Lemma u16_range x : 0 <= u16 x < 65536. Proof. unfold u16. lia. Qed.

(** Invariant: [T] is what every handler got in completed rounds. *)
Definition inv (n : nat) (s : sched) (tr : list sobs) : Prop :=
  sc_n s = n /\
  sc_frame s = vsyncs tr mod 65536 /\ 0 <= sc_prev s < 65536 /\
  exists T, 0 <= T /\
  match sc_pc s with
  | PTick | PCmp | PDelta =>
      (forall h, (h < n)%nat -> delivered_to h tr = T) /\
      T + vsyncs_inside tr <= vsyncs tr /\
      sc_prev s = (T + vsyncs_inside tr) mod 65536 /\
      exists r, calls tr = concat (repeat (seq 0 n) r)
  | PCall i d =>
      (i < n)%nat /\ 0 <= d /\
      (forall h, (h < n)%nat -> delivered_to h tr = if Nat.ltb h i then T + d else T) /\
      T + d + vsyncs_inside tr <= vsyncs tr /\
      cong (T + d + vsyncs_inside tr) (vsyncs tr) /\
      exists r, calls tr = concat (repeat (seq 0 n) r) ++ seq 0 i
  | PLoad =>
      (forall h, (h < n)%nat -> delivered_to h tr = T) /\
      T + vsyncs_inside tr <= vsyncs tr /\
      cong (T + vsyncs_inside tr) (vsyncs tr) /\
      exists r, calls tr = concat (repeat (seq 0 n) r)
  | PStore v =>
      (forall h, (h < n)%nat -> delivered_to h tr = T) /\
      T + vsyncs_inside tr <= vsyncs tr /\
      v = (T + vsyncs_inside tr) mod 65536 /\
      exists r, calls tr = concat (repeat (seq 0 n) r)
  end.

Lemma rounds_snoc n r :
  concat (repeat (seq 0 n) r) ++ seq 0 n = concat (repeat (seq 0 n) (S r)).
Proof.
  cbn. induction r as [|r IH]; cbn; [rewrite app_nil_r; reflexivity|].
  rewrite <- app_assoc, IH. reflexivity.
Qed.

Lemma inv_vsync n s tr : inv n s tr ->
  inv n (fst (sched_step s LVsync)) (tr ++ snd (sched_step s LVsync)).
Proof.
  intros (Hn & Hf & Hp & T & HT & H). cbn [sched_step fst snd].
  unfold inv; cbn [sc_n sc_frame sc_prev sc_pc].
  rewrite vsyncs_app, inside_app, calls_app, vsyncs_1, inside_1, calls_1.
  rewrite app_nil_r.
  assert (HD : forall h, delivered_to h (tr ++ [OVsync (inside_pc (sc_pc s))]) = delivered_to h tr)
    by (intros; rewrite delivered_app, delivered_1; lia).
  split; [assumption|]. split.
  { rewrite Hf. unfold u16. rewrite Zplus_mod_idemp_l. f_equal; lia. }
  split; [assumption|]. exists T. split; [assumption|].
  assert (Hc : forall a b, cong a b -> cong (a + 1) (b + 1)).
  { unfold cong. intros a b E. rewrite <- (Zplus_mod_idemp_l a), <- (Zplus_mod_idemp_l b), E. reflexivity. }
  destruct (sc_pc s) as [| | |i d| |v]; cbn [inside_pc] in *.
  - destruct H as (H1 & H2 & H3 & H4). rewrite !Z.add_0_r.
    split; [intros; rewrite HD; auto|]. split; [lia|]. split; assumption.
  - destruct H as (H1 & H2 & H3 & H4). rewrite !Z.add_0_r.
    split; [intros; rewrite HD; auto|]. split; [lia|]. split; assumption.
  - destruct H as (H1 & H2 & H3 & H4). rewrite !Z.add_0_r.
    split; [intros; rewrite HD; auto|]. split; [lia|]. split; assumption.
  - destruct H as (H0 & H1 & H2 & H3 & H4 & H5).
    split; [assumption|]. split; [assumption|]. split; [intros; rewrite HD; auto|].
    split; [lia|]. split; [|assumption].
    replace (T + d + (vsyncs_inside tr + 1)) with (T + d + vsyncs_inside tr + 1) by lia.
    apply Hc; assumption.
  - destruct H as (H1 & H2 & H3 & H4).
    split; [intros; rewrite HD; auto|]. split; [lia|]. split; [|assumption].
    replace (T + (vsyncs_inside tr + 1)) with (T + vsyncs_inside tr + 1) by lia.
    apply Hc; assumption.
  - destruct H as (H1 & H2 & H3 & H4). rewrite !Z.add_0_r.
    split; [intros; rewrite HD; auto|]. split; [lia|]. split; assumption.
Qed.

Lemma inv_main n s tr : inv n s tr ->
  inv n (fst (sched_step s LMain)) (tr ++ snd (sched_step s LMain)).
Proof.
  intros (Hn & Hf & Hp & T & HT & H). cbn [sched_step].
  assert (Hfr : 0 <= sc_frame s < 65536) by (rewrite Hf; lia).
  destruct (sc_pc s) as [| | |i d| |v] eqn:Epc; cbn [fst snd set_pc].
  - (* PTick *)
    destruct H as (H1 & H2 & H3 & H4). unfold inv; cbn.
    rewrite vsyncs_app, inside_app, calls_app, vsyncs_1, inside_1, calls_1. rewrite !Z.add_0_r, app_nil_r.
    split; [assumption|]. split; [assumption|]. split; [assumption|].
    exists T. split; [assumption|]. split; [|auto].
    intros h Hh. rewrite delivered_app, delivered_1. rewrite Z.add_0_r. auto.
  - rewrite app_nil_r. unfold inv; cbn.
    split; [assumption|]. split; [assumption|]. split; [assumption|].
    exists T. split; [assumption|]. destruct (sc_frame s =? sc_prev s); exact H.
  - (* PDelta *)
    rewrite app_nil_r. unfold inv; cbn.
    split; [assumption|]. split; [assumption|]. split; [assumption|].
    destruct H as (H1 & H2 & H3 & H4). set (L := vsyncs_inside tr) in *. set (V := vsyncs tr) in *.
    unfold next_call. rewrite Hn.
    set (d := u16 (sc_frame s - sc_prev s)).
    assert (Hd : d = (V - (T + L)) mod 65536).
    { unfold d, u16. rewrite Hf, H3. rewrite Zminus_mod_idemp_l, Zminus_mod_idemp_r. reflexivity. }
    assert (Hd0 : 0 <= d) by (unfold d, u16; lia).
    assert (Hle : T + d + L <= V).
    { rewrite Hd. assert ((V - (T + L)) mod 65536 <= V - (T + L)) by (apply Z.mod_le; lia). lia. }
    assert (Hcg : cong (T + d + L) V).
    { unfold cong. rewrite Hd.
      replace (T + (V - (T + L)) mod 65536 + L) with ((T + L) + (V - (T + L)) mod 65536) by lia.
      rewrite Zplus_mod_idemp_r. f_equal; lia. }
    destruct (Nat.ltb_spec 0 n) as [Hlt|Hge].
    + exists T. split; [assumption|].
      split; [assumption|]. split; [assumption|]. split.
      { intros h Hh. destruct (Nat.ltb_spec h 0); [lia|]. auto. }
      split; [assumption|]. split; [assumption|].
      destruct H4 as [r Hr]. exists r. rewrite app_nil_r. assumption.
    + exists (T + d). split; [lia|]. split; [intros; lia|].
      split; [lia|]. split; [assumption|]. assumption.
  - (* PCall *)
    destruct H as (H0 & H1 & H2 & H3 & H4 & H5). unfold inv; cbn.
    rewrite vsyncs_app, inside_app, calls_app, vsyncs_1, inside_1, calls_1. rewrite !Z.add_0_r.
    split; [assumption|]. split; [assumption|]. split; [assumption|].
    unfold next_call. rewrite Hn.
    assert (HD : forall h, (h < n)%nat -> delivered_to h (tr ++ [OCall i d])
                 = if Nat.ltb h (S i) then T + d else T).
    { intros h Hh. rewrite delivered_app, delivered_1. rewrite (H2 h Hh).
      destruct (Nat.eqb_spec i h); destruct (Nat.ltb_spec h i); destruct (Nat.ltb_spec h (S i)); lia. }
    assert (HS : forall r, calls tr = concat (repeat (seq 0 n) r) ++ seq 0 i ->
                 calls tr ++ [i] = concat (repeat (seq 0 n) r) ++ seq 0 (S i)).
    { intros r ->. rewrite <- app_assoc. f_equal. rewrite seq_S. reflexivity. }
    destruct H5 as [r Hr].
    destruct (Nat.ltb_spec (S i) n) as [Hlt|Hge].
    + exists T. split; [assumption|]. split; [assumption|]. split; [assumption|].
      split; [assumption|]. split; [assumption|]. split; [assumption|].
      exists r. apply HS; assumption.
    + assert (n = S i) by lia. exists (T + d). split; [lia|]. split.
      { intros h Hh. rewrite HD by assumption. destruct (Nat.ltb_spec h (S i)); lia. }
      split; [assumption|]. split; [assumption|].
      exists (S r). rewrite (HS r Hr). rewrite <- rounds_snoc. f_equal. f_equal. lia.
  - (* PLoad *)
    destruct H as (H1 & H2 & H3 & H4). rewrite app_nil_r. unfold inv; cbn.
    split; [assumption|]. split; [assumption|]. split; [assumption|].
    exists T. split; [assumption|]. split; [assumption|]. split; [assumption|].
    split; [rewrite Hf; symmetry; exact H3|assumption].
  - destruct H as (H1 & H2 & H3 & H4). rewrite app_nil_r. unfold inv; cbn.
    split; [assumption|]. split; [assumption|]. split; [subst v; lia|].
    exists T. split; [assumption|]. split; [assumption|]. split; [assumption|].
    split; assumption.
Qed.

Lemma inv_run n ls : forall s tr, inv n s tr ->
  inv n (fst (sched_run s ls)) (tr ++ snd (sched_run s ls)).
Proof.
  induction ls as [|l t IH]; intros s tr H; cbn [sched_run fst snd].
  - rewrite app_nil_r. exact H.
  - assert (H1 : inv n (fst (sched_step s l)) (tr ++ snd (sched_step s l)))
      by (destruct l; [apply inv_vsync|apply inv_main]; assumption).
    destruct (sched_step s l) as [s1 o1]; cbn [fst snd] in *.
    specialize (IH s1 (tr ++ o1) H1). destruct (sched_run s1 t) as [s2 o2]; cbn [fst snd] in *.
    rewrite app_assoc. exact IH.
Qed.

Lemma inv_init n : inv n (sched_init n) [].
Proof.
  unfold inv, sched_init; cbn. change (vsyncs []) with 0. change (vsyncs_inside []) with 0.
  split; [reflexivity|]. split; [reflexivity|]. split; [lia|].
  exists 0. split; [lia|]. split; [reflexivity|]. split; [lia|]. split; [reflexivity|].
  exists O. reflexivity.
Qed.

(** Between calls of scheduler_tick. *)
Lemma frames_accounted n ls s tr :
  sched_run (sched_init n) ls = (s, tr) -> sc_pc s = PTick ->
  exists T, (forall h, (h < n)%nat -> delivered_to h tr = T) /\
    0 <= T /\ T + vsyncs_inside tr <= vsyncs tr /\
    (vsyncs tr - vsyncs_inside tr - T) mod 65536 = (sc_frame s - sc_prev s) mod 65536.
Proof.
  intros E Hpc. assert (H := inv_run n ls _ _ (inv_init n)). rewrite E in H; cbn [fst snd app] in H.
  destruct H as (Hn & Hf & Hp & T & HT & H). rewrite Hpc in H. destruct H as (H1 & H2 & H3 & _).
  exists T. split; [assumption|]. split; [assumption|]. split; [assumption|].
  rewrite Hf, H3. rewrite Zminus_mod_idemp_l, Zminus_mod_idemp_r. f_equal; lia.
Qed.

Lemma call_order n ls s tr :
  sched_run (sched_init n) ls = (s, tr) -> rounds n (calls tr).
Proof.
  intros E. assert (H := inv_run n ls _ _ (inv_init n)). rewrite E in H; cbn [fst snd app] in H.
  destruct H as (Hn & Hf & Hp & T & HT & H). unfold rounds.
  destruct (sc_pc s) as [| | |i d| |v].
  all: try (destruct H as (_ & _ & _ & r & ->); exists r, O; cbn; rewrite app_nil_r; split; [reflexivity|lia]).
  destruct H as (Hi & _ & _ & _ & _ & r & ->). exists r, i. split; [reflexivity|lia].
Qed.

(** One uninterrupted scheduler_tick delivers everything outstanding. *)
Definition one_tick (n : nat) : list slbl := repeat LMain (5 + n).

Lemma tick_deliver n f p tk : (f =? p) = false ->
  sched_run (mkSched f p tk n PTick) (repeat LMain (5 + n))
  = (mkSched f f (u16 (tk + 1)) n PTick,
     OTick :: map (fun i => OCall i (u16 (f - p))) (seq 0 n)).
Proof.
  intros Hne.
  replace (repeat LMain (5 + n)) with (repeat LMain 3 ++ repeat LMain n ++ repeat LMain 2)
    by (rewrite <- !repeat_app; f_equal; lia).
  assert (Happ : forall l1 l2 s, sched_run s (l1 ++ l2)
     = let (s1, o1) := sched_run s l1 in let (s2, o2) := sched_run s1 l2 in (s2, o1 ++ o2)).
  { induction l1 as [|l t IH]; intros l2 s; cbn [app sched_run].
    - destruct (sched_run s l2); reflexivity.
    - destruct (sched_step s l) as [s1 o1]. rewrite IH. destruct (sched_run s1 t) as [s2 o2].
      destruct (sched_run s2 l2) as [s3 o3]. rewrite app_assoc. reflexivity. }
  rewrite Happ. cbn [repeat sched_run sched_step set_pc sc_pc sc_frame sc_prev sc_ticks sc_n app].
  rewrite Hne. cbn [sched_run sched_step set_pc sc_pc sc_frame sc_prev sc_ticks sc_n app].
  assert (HC : forall k i d, (i + k = n)%nat ->
     sched_run (mkSched f p (u16 (tk + 1)) n (next_call n i d)) (repeat LMain k)
     = (mkSched f p (u16 (tk + 1)) n PLoad, map (fun j => OCall j d) (seq i k))).
  { induction k as [|k IH]; intros i d Hik; cbn [repeat sched_run seq map].
    - unfold next_call. destruct (Nat.ltb_spec i n); [lia|]. reflexivity.
    - unfold next_call at 1. destruct (Nat.ltb_spec i n); [|lia].
      cbn [sched_step sc_pc sc_n set_pc sc_frame sc_prev sc_ticks].
      unfold set_pc. cbn [sc_n sc_frame sc_prev sc_ticks]. rewrite (IH (S i) d) by lia. reflexivity. }
  rewrite Happ. unfold set_pc. cbn [sc_n sc_frame sc_prev sc_ticks].
  rewrite (HC n 0%nat) by lia.
  cbn [repeat sched_run sched_step set_pc sc_pc sc_frame sc_prev sc_ticks sc_n app].
  unfold set_pc. cbn [sched_run sched_step sc_n sc_frame sc_prev sc_ticks sc_pc app].
  rewrite ?app_nil_r. reflexivity.
Qed.

Lemma lost_frame :
  exists ls s, let (s', tr) := sched_run (sched_init 1) ls in
    s' = s /\ sc_pc s = PTick /\ sc_frame s = sc_prev s /\
    vsyncs tr = 2 /\ delivered_to 0 tr = 1.
Proof.
  exists [LVsync; LMain; LMain; LMain; LVsync; LMain; LMain; LMain]. eexists. vm_compute.
  repeat split; reflexivity.
Qed.

Lemma boot_ok mw : exists r, boot_registrations mw (mkRegs [] []) = Done tt r [].
Proof. destruct mw; eexists; reflexivity. Qed.
Lemma boot_table_full : exists r,
  boot_registrations true (mkRegs [] []) = Done tt r [] /\
  rg_frame r = [H_psg_tick; H_midi_tick; H_ui_update; H_megawifi_vsync; H_demo_vsync; H_led_tick] /\
  rg_tick r = [H_megawifi_tick; H_midi_rx] /\ forall h, add_frame_handler h r = Fault F_die.
Proof. eexists. repeat split; reflexivity. Qed.
