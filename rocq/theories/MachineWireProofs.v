From Verif Require Import Base BaseLemmas RingBufModel RingBufSpec RingBufProofs SchedulerModel PsgModel SynthModel SynthSpec MidiModel MidiSpec RxModel RxSpec RxProofs SerialModel SerialSpec SerialProofs.
From Verif Require Import DevModel DevSpec DevProofs AppModel AppSpec AppProofs LibraryProofs SoundSpec SongSpec SongProofs AppNoteProofs MidiHistProofs MidiEqProofs MachineModel MachineSpec MachineProofs MachineRunProofs.
Local Notation frames := frames_done.

(** ** No run gets stuck *)
Lemma history_runs_on r hw mem ops a tr more : history r hw mem ops a tr -> forall s tr', history r hw mem (ops ++ more) s tr' ->
  exists o, app_run r more a = Done tt s o /\ tr' = tr ++ o.
Proof.
  intros H. induction more as [|op more IH] using rev_ind; intros s tr' H'.
  - rewrite app_nil_r in H'. destruct (history_same _ _ _ _ _ _ _ _ H H') as [-> ->]. exists []. rewrite app_nil_r. split; reflexivity.
  - rewrite app_assoc in H'. apply history_prefix in H' as (s0 & tr0 & o & H0 & _ & E & ->). destruct (IH _ _ H0) as (o0 & E0 & ->).
    exists (o0 ++ o). split; [|rewrite app_assoc; reflexivity]. unfold app_run in *. rewrite runM_app. unfold bind. rewrite E0. cbn [runM]. unfold bind, ret.
    rewrite E, app_nil_r. reflexivity.
Qed.

Lemma in_msgs m ops : In (AMsg m) ops <-> In m (msgs ops).
Proof.
  unfold msgs. rewrite in_flat_map. split.
  - intros H. exists (AMsg m). split; [exact H|left; reflexivity].
  - intros ([x|] & H & Hx); [destruct Hx as [->|[]]; exact H|destruct Hx].
Qed.
Lemma runs_on r hw mem ops a tr more : history r hw mem ops a tr -> Forall aop_ok more -> Forall calm (msgs (ops ++ more)) ->
  exists s o, app_run r more a = Done tt s o.
Proof.
  intros H Hm Hc. assert (Ho := H). destruct Ho as (Hr & Hmem & Ho & _).
  destruct (history_dacless r hw mem (ops ++ more) Hr Hmem) as (s & tr' & H').
  - apply Forall_app. auto.
  - intros m Hin. rewrite Forall_forall in Hc. apply Hc, in_msgs, Hin.
  - intros m Hin. rewrite Forall_forall in Hc. apply Hc, in_msgs, Hin.
  - destruct (history_runs_on _ _ _ _ _ _ _ H _ _ H') as (o & E & _). eauto.
Qed.

Lemma step_total X r hw mem evs e m tr l rest ops : Forall msg_ok l -> Forall calm (meanings [] l) ->
  arrived (evs ++ [e]) ++ rest = stream l -> (forall b, e = BArrive b -> ring_buf_can_write (sl_ring (mc_port m)) = true) ->
  inv_at X r hw mem evs m tr ops -> exists m' o, machine_step r e m = Done tt m' o.
Proof.
  intros Hl Hq Hs Hroom (read & wait & st & A & P & R & W & C & _).
  assert (By := encode_bytes l Hl). rewrite <- Hs in By. apply Forall_app in By as [By _]. rewrite arrived_app in By. apply Forall_app in By as [_ By].
  assert (Calm : forall x y ms st', read ++ x ++ y = stream l -> receive [] None (read ++ x) = Ran (msgs ops ++ ms) st' -> Forall mop_ok ms /\ Forall calm (msgs ops ++ ms)).
  { intros x y ms st' Ex R'. destruct (decoded l Hl (read ++ x) y) as (l1 & l2 & st2 & -> & D & _); [rewrite <- app_assoc; exact Ex|].
    rewrite R' in D. injection D as D _. apply Forall_app in Hl as [Hl _]. apply meanings_ok in Hl. unfold meanings in Hq. rewrite flat_map_app in Hq. apply Forall_app in Hq as [Hq _].
    fold (meanings [] l1) in Hq. rewrite <- D in Hl, Hq. apply Forall_app in Hl as [_ Hl]. auto. }
  assert (Frame : forall a0 tr0, history r hw mem ops a0 tr0 -> e = BMain -> exists a1 o1 a2 o2, app_dev (ps r PsgModel.PTick) a0 = Done tt a1 o1 /\ app_midi r (midi_step MTick) a1 = Done tt a2 o2).
  { intros a0 tr0 H ->. rewrite arrived_app, A in Hs. change (arrived [BMain]) with (@nil Z) in Hs. rewrite app_nil_r in Hs.
    destruct (Calm [] (wait ++ rest) [] st) as (_ & Hc); [rewrite <- Hs, <- app_assoc; reflexivity|rewrite !app_nil_r; exact R|].
    destruct (runs_on r hw mem ops a0 tr0 [AFrame] H) as (s & o & E).
    - constructor; [exact Logic.I|constructor].
    - rewrite msgs_app. exact Hc.
    - unfold app_run in E. cbn [runM] in E. apply bind_inv in E as ([] & s1 & o1 & o2 & E & _). cbn [app_step] in E. apply bind_inv in E as ([] & a1 & p1 & p2 & E1 & E2 & _).
      exists a1, p1, s1, p2. auto. }
  destruct m as [a p s]. cbn [mc_app mc_port mc_sched] in *. destruct e as [b| |]; cbn [machine_step].
  - unfold bind, get. cbn [mc_port]. assert (Hb : byte_ok b) by (inversion By; assumption).
    destruct (arrive_holds p wait st b P Hb (can_write_ring _ _ (proj1 P) (Hroom b eq_refl))) as (p' & Ea & P').
    rewrite Ea. eexists _, _. reflexivity.
  - eexists _, _. reflexivity.
  - unfold main_step, bind at 1, get. cbn [mc_sched]. unfold performed in W. cbn [mc_sched mc_app] in W.
    destruct (sc_pc s) as [| | |i d| |v] eqn:Ep; try (eexists _, _; reflexivity).
    + unfold rx_step, bind at 1, get. cbn [mc_port]. rewrite (ready_holds _ _ _ P). destruct wait as [|x q].
      * destruct P as (_ & Pst & _). rewrite Pst. destruct st as [t|]; eexists _, _; reflexivity.
      * assert (Q := poll_holds [] p x q st P). change STARTUP_MIDI_SEQUENCE with (@nil Z).
        rewrite arrived_app, A in Hs. change (arrived [BMain]) with (@nil Z) in Hs. rewrite app_nil_r in Hs.
        assert (Ex : read ++ [x] ++ q ++ rest = stream l) by (rewrite <- Hs, <- app_assoc; reflexivity).
        destruct (rx_byte (reset_action []) st x) as [ms st'|f] eqn:Eb.
        -- destruct Q as (p' & Ep' & Hp'). rewrite Ep'.
           assert (R' : receive [] None (read ++ [x]) = Ran (msgs ops ++ ms) st').
           { unfold receive in *. rewrite rx_run_app, R. cbn [rx_run]. rewrite Eb. cbn [after]. rewrite app_nil_r. reflexivity. }
           destruct (Calm [x] (q ++ rest) ms st' Ex R') as (Hok & Hc).
           destruct (runs_on r hw mem ops a tr (map AMsg ms) W) as (a' & o & E).
           ++ apply Forall_map. exact Hok.
           ++ rewrite msgs_app, msgs_map. exact Hc.
           ++ unfold bind, put_port, modify, on_app, lift. cbn [mc_app mc_sched mc_port]. rewrite E. eexists _, _; reflexivity.
        -- exfalso. destruct (decoded l Hl (read ++ [x]) (q ++ rest)) as (l1 & l2 & st2 & -> & D & _); [rewrite <- app_assoc; exact Ex|].
           unfold receive in *. rewrite rx_run_app, R in D. cbn [rx_run] in D. rewrite Eb in D. discriminate.
    + assert (Eh : exists a' o, frame_handler r i a = Done tt a' o).
      { destruct i as [|[|i]]; cbn [frame_handler].
        - destruct (Frame a tr W eq_refl) as (a1 & o1 & _ & _ & E & _). eauto.
        - destruct W as (a0 & tr0 & o & W & E0 & _). destruct (Frame a0 tr0 W eq_refl) as (a1 & o1 & a2 & o2 & E1 & E2). rewrite E0 in E1. injection E1 as <- <-. eauto.
        - eexists _, _; reflexivity. }
      destruct Eh as (a' & o & Eh). unfold bind, on_app, lift, on_sched, modify. cbn [mc_app mc_sched mc_port]. rewrite Eh. eexists _, _; reflexivity.
Qed.

(** With the ROM and memory in order, and without the sample switch and odd envelopes,
    the interface runs for ever. *)
Theorem machine_total r hw mem arr evs l rest : rom_ok r -> mem_ok mem -> (512 <= length arr)%nat -> Forall msg_ok l -> Forall calm (meanings [] l) ->
  arrived evs ++ rest = stream l -> no_overrun r hw mem arr evs -> exists m tr, running r hw mem arr evs m tr.
Proof.
  intros Hr Hm Ha Hl Hq. revert rest. induction evs as [|e evs IH] using rev_ind; intros rest Hs Ho.
  - destruct (history_dacless r hw mem [] Hr Hm (Forall_nil _)) as (s & tr & H); [intros m []|intros m []|]. destruct H as (_ & _ & _ & E).
    exists (machine_start s arr), (tr ++ []). split; [exact Hr|]. split; [exact Hm|]. split; [exact Ha|]. exists s, tr, []. auto.
  - assert (Hs' : arrived evs ++ (arrived [e] ++ rest) = stream l) by (rewrite <- Hs, arrived_app, <- app_assoc; reflexivity).
    assert (Ho' := overrun_prefix _ _ _ _ _ _ Ho). destruct (IH _ Hs' Ho') as (m & tr & H).
    destruct (machine_always r hw mem arr evs l _ m tr Hl H Hs' Ho') as (ops & Iv).
    assert (Hroom : forall b, e = BArrive b -> ring_buf_can_write (sl_ring (mc_port m)) = true)
      by (intros b ->; exact (Ho evs b [] m tr eq_refl H)).
    destruct (step_total _ r hw mem evs e m tr l rest ops Hl Hq Hs Hroom Iv) as (m' & o & E).
    exists m', (tr ++ o). exact (running_step _ _ _ _ _ _ _ _ _ _ H E).
Qed.

(** ** Inside a message everything waits *)
Definition waits_inside (m : machine) : Prop := at_rest m /\ caught_up m /\ sl_rx (mc_port m) <> None.
Lemma inside_step r e m m' o : waits_inside m -> arrived [e] = [] -> machine_step r e m = Done tt m' o -> waits_inside m' /\ o = [] /\ mc_app m' = mc_app m.
Proof.
  intros (Hr & Hc & Hx) A E. destruct e as [b| |]; [discriminate| |].
  - cbn in E. injection E as <- <-. split; [|auto]. split; [exact Hr|]. split; [exact Hc|exact Hx].
  - cbn [machine_step] in E. unfold main_step, bind, get in E. unfold at_rest in Hr. rewrite Hr in E. unfold rx_step, bind, get in E. unfold caught_up in Hc. rewrite Hc in E.
    destruct (sl_rx (mc_port m)) as [t|] eqn:Ex; [|congruence]. cbn in E. injection E as <- <-. split; [|auto]. split; [exact Hr|]. split; [exact Hc|]. rewrite Ex. discriminate.
Qed.
Lemma inside_run r more : forall m m' o, waits_inside m -> arrived more = [] -> machine_run r more m = Done tt m' o -> o = [] /\ mc_app m' = mc_app m.
Proof.
  induction more as [|e more IH]; intros m m' o H A E; [cbn in E; injection E as <- <-; auto|].
  apply run_cons in E as (m1 & o1 & o2 & E1 & E2 & ->). assert (A1 : arrived [e] = [] /\ arrived more = []) by (destruct e; try discriminate; auto).
  destruct A1 as [A1 A2]. destruct (inside_step _ _ _ _ _ H A1 E1) as (H1 & -> & Ea). destruct (IH _ _ _ H1 A2 E2) as (-> & Eb). split; [reflexivity|congruence].
Qed.

Lemma opened_part r m part more : msg_ok m -> opens m -> part <> [] -> more <> [] -> encode m = part ++ more -> exists t, rx_run r None part = Ran [] (Some t).
Proof.
  intros Hm Ho Hp Hq E.
  destruct m; cbn [opens] in Ho; try contradiction; cbn [encode msg_ok] in *; unfold chan_ok in *.
  Local Ltac cut3 E Hp Hq :=
    match type of E with _ = ?p ++ ?q => destruct p as [|? [|? [|? p]]]; cbn [Datatypes.app] in E; try congruence; try (injection E as <- <- <- E; destruct p, q; try discriminate; congruence);
      [injection E as <- _|injection E as <- <- _] end.
  - cut3 E Hp Hq; destruct Hm as (Hc & Hk & _); replace (128 + c) with (16 * 8 + c) by lia; cbn [rx_run]; unfold rx_byte at 1, read_message; rewrite nib_hi by assumption; eexists; reflexivity.
  - cut3 E Hp Hq; destruct Hm as (Hc & Hk & _); replace (144 + c) with (16 * 9 + c) by lia; cbn [rx_run]; unfold rx_byte at 1, read_message; rewrite nib_hi by assumption; eexists; reflexivity.
  - cut3 E Hp Hq; destruct Hm as (Hc & Hk & _); replace (176 + c) with (16 * 11 + c) by lia; cbn [rx_run]; unfold rx_byte at 1, read_message; rewrite nib_hi by assumption; eexists; reflexivity.
  - destruct part as [|? [|? part]]; cbn [Datatypes.app] in E; [congruence|injection E as <- _|injection E as <- <- E; destruct part, more; try discriminate; congruence].
    destruct Hm as (Hc & _). replace (192 + c) with (16 * 12 + c) by lia; cbn [rx_run]; unfold rx_byte at 1, read_message; rewrite nib_hi by assumption; eexists; reflexivity.
  - cut3 E Hp Hq; destruct Hm as (Hc & _); replace (224 + c) with (16 * 14 + c) by lia; cbn [rx_run]; unfold rx_byte at 1, read_message; rewrite nib_hi by assumption; eexists; reflexivity.
  - destruct Hm as (Hb & Hl). destruct part as [|x p]; [congruence|]. cbn [Datatypes.app] in E. injection E as <- E.
    destruct (exists_last Hq) as (q' & z & ->). rewrite app_assoc in E. apply app_inj_tail in E as [E <-].
    cbn [rx_run]. change (rx_byte r None 0xF0) with (Ran [] (Some (read_sysex 256 []))). cbv iota.
    assert (Hb' : Forall (fun d => d <> 0xF7) p).
    { rewrite E in Hb. apply Forall_app in Hb as [Hb _]. eapply Forall_impl; [|exact Hb]. intros d Hd. unfold data_ok in Hd. lia. }
    assert (Lp : (length p + length q' = length body)%nat) by (rewrite E, app_length; reflexivity).
    rewrite (sysex_run r p) by (assumption || lia). destruct (Nat.eqb_spec (length p) 256) as [L|L]; [lia|]. eexists. reflexivity.
Qed.

Theorem machine_stalls r hw mem arr evs more m tr m' tr' l x part tail : running r hw mem arr evs m tr -> running r hw mem arr (evs ++ more) m' tr' ->
  Forall msg_ok (l ++ [x]) -> opens x -> encode x = part ++ tail -> part <> [] -> tail <> [] -> arrived evs = stream l ++ part ->
  no_overrun r hw mem arr evs -> at_rest m -> caught_up m -> arrived more = [] -> tr' = tr /\ mc_app m' = mc_app m.
Proof.
  intros H H' Hl Ho Ex Hp Hq Hs Hov Hr Hc A.
  assert (Hst : arrived evs ++ tail = stream (l ++ [x])) by (unfold stream in *; rewrite Hs, flat_map_app, <- app_assoc, <- Ex; cbn [flat_map]; rewrite app_nil_r; reflexivity).
  destruct (machine_always r hw mem arr evs _ tail m tr Hl H Hst Hov) as (ops & read & wait & st & Ar & P & R & _).
  assert (wait = []) by (apply (holds_caught _ _ _ P), Hc). subst wait. rewrite app_nil_r in Ar. rewrite <- Ar, Hs in R.
  apply Forall_app in Hl as [Hl Hx]. apply Forall_inv in Hx.
  assert (S : receive [] None (stream l) = Ran (meanings [] l) None) by exact (c03 [] l (conj (Forall_nil _) (Forall_nil _)) Hl).
  unfold receive in *. rewrite rx_run_app, S in R. destruct (opened_part (reset_action []) x part tail Hx Ho Hp Hq Ex) as (t & Et). rewrite Et in R. cbn [after] in R. injection R as _ <-.
  apply running_app in H' as (m0 & tr0 & o & H0 & E & ->).
  assert (X : m0 = m /\ tr0 = tr).
  { destruct H as (_ & _ & _ & a & oa & ob & Ea & Eb & ->), H0 as (_ & _ & _ & a' & oa' & ob' & Ea' & Eb' & ->). rewrite Ea in Ea'. injection Ea' as <- <-. rewrite Eb in Eb'. injection Eb' as <- <-. auto. }
  destruct X as [-> ->].
  destruct (inside_run r more m m' o) as (-> & Em); [|exact A|exact E|rewrite app_nil_r; auto].
  split; [exact Hr|]. split; [exact Hc|]. destruct P as (_ & -> & _). discriminate.
Qed.
