From Verif Require Import Base BaseLemmas MidiModel MidiSpec RxModel RxSpec RxProofs DevModel DevSpec AppModel AppSpec AppProofs CommModel CommSpec CommProofs.
From Verif Require Import MachineSpec MachineProofs MachineWireProofs WifiSpec ReplyProofs AppNoteProofs HubModel HubSpec.
From Verif Require WifiModel WifiProofs.
Import WifiProofs(outgoing_sent, boot_silent, boot_then).

(** ** Which transport *)
Section Choice.
Context (n : nat) (present : nat -> bool).
Local Notation has_data := (has_data n present).
Local Notation chosen := (chosen n present).
Definition unserved (evs : list hevent) : Prop := forall pre post, evs = pre ++ HPoll :: post -> forall j, ~ has_data j pre.

Lemma snoc_split {A} (l : list A) e pre x post : l ++ [e] = pre ++ x :: post ->
  (post = [] /\ e = x /\ pre = l) \/ exists post', post = post' ++ [e] /\ l = pre ++ x :: post'.
Proof.
  destruct post as [|y post] using rev_ind; intros H.
  - left. apply app_inj_tail in H as [-> ->]. auto.
  - right. rewrite app_comm_cons, app_assoc in H. apply app_inj_tail in H as [-> ->]. eauto.
Qed.
Lemma arrivals_app i a b : arrivals i (a ++ b) = arrivals i a ++ arrivals i b.
Proof. apply flat_map_app. Qed.
Lemma has_data_more i a b : has_data i a -> has_data i (a ++ b).
Proof. intros (A & B & C). split; [exact A|]. split; [exact B|]. rewrite arrivals_app. destruct (arrivals i a); [contradiction|discriminate]. Qed.
Lemma unserved_nil : unserved [].
Proof. intros pre post H. destruct pre; discriminate. Qed.
Lemma unserved_other evs e : e <> HPoll -> unserved evs -> unserved (evs ++ [e]).
Proof. intros N U pre post H. apply snoc_split in H as [(_ & -> & _)|(post' & _ & ->)]; [contradiction|]. exact (U _ _ eq_refl). Qed.
Lemma unserved_poll evs : unserved evs -> (forall j, ~ has_data j evs) -> unserved (evs ++ [HPoll]).
Proof. intros U N pre post H. apply snoc_split in H as [(_ & _ & ->)|(post' & _ & ->)]; [exact N|]. exact (U _ _ eq_refl). Qed.
Lemma unserved_not evs i : unserved evs -> ~ chosen evs i.
Proof. intros U (pre & post & E & H & _). exact (U _ _ E i H). Qed.
Lemma chosen_more evs more i : chosen evs i -> chosen (evs ++ more) i.
Proof. intros (pre & post & -> & H). exists pre, (post ++ more). split; [rewrite <- app_assoc; reflexivity|exact H]. Qed.
Lemma chosen_poll evs i : unserved evs -> has_data i evs -> (forall j, (j < i)%nat -> ~ has_data j evs) -> chosen (evs ++ [HPoll]) i.
Proof. intros U H F. exists evs, []. auto. Qed.
Lemma chosen_unique evs i j : chosen evs i -> chosen evs j -> i = j.
Proof.
  intros (p1 & q1 & E1 & D1 & F1 & U1) (p2 & q2 & E2 & D2 & F2 & U2).
  assert (P : p1 = p2).
  { rewrite E1 in E2. clear E1. revert p2 E2 D2 U2 F2. induction p1 as [|x p1 IH] using rev_ind; intros p2 E2 D2 U2 F2.
    - destruct p2 as [|y p2]; [reflexivity|]. destruct D1 as (_ & _ & D1). contradiction D1. reflexivity.
    - clear IH. assert (L : (p1 ++ [x] = p2) \/ (exists z, p2 = (p1 ++ [x]) ++ HPoll :: z) \/ (exists z, p1 ++ [x] = p2 ++ HPoll :: z)).
      { clear - E2. revert p2 E2. generalize (p1 ++ [x]) as p. intros p. induction p as [|y p IH]; intros p2 E.
        - destruct p2 as [|w p2]; [auto|]. cbn in E. injection E as <- E. right. left. exists p2. reflexivity.
        - destruct p2 as [|w p2].
          + cbn in E. injection E as -> E. right. right. exists p. reflexivity.
          + cbn in E. injection E as -> E. destruct (IH p2 E) as [->|[(z & ->)|(z & ->)]]; [auto|right; left; exists z; reflexivity|right; right; exists z; reflexivity]. }
      destruct L as [L|[(z & L)|(z & L)]]; [exact L| |].
      + exfalso. exact (U2 _ _ L i D1).
      + exfalso. exact (U1 _ _ L j D2). }
  subst p2. destruct (Nat.lt_trichotomy i j) as [L|[L|L]]; [|exact L|].
  - exfalso. exact (F2 i L D1).
  - exfalso. exact (F1 j L D2).
Qed.
Lemma chosen_there evs i : chosen evs i -> (i < n)%nat /\ present i = true.
Proof. intros (pre & post & _ & (A & B & _) & _). auto. Qed.

(** ** What the transports answer *)
Lemma answers_nth q i : (i < n)%nat -> nth i (answers_of n present q) (false, false) = (present i, match q i with [] => false | _ => true end).
Proof.
  intros H. unfold answers_of. set (f := fun i => (present i, match q i with [] => false | _ => true end)).
  rewrite (nth_indep _ (false, false) (f 0%nat)) by (rewrite map_length, seq_length; exact H).
  rewrite map_nth, seq_nth by exact H. reflexivity.
Qed.
Lemma answers_beyond q i : (n <= i)%nat -> nth i (answers_of n present q) (false, false) = (false, false).
Proof. intros H. apply nth_overflow. unfold answers_of. rewrite map_length, seq_length. exact H. Qed.
Lemma offers_iff q i : offers (answers_of n present q) i <-> (i < n)%nat /\ present i = true /\ q i <> [].
Proof.
  unfold offers. destruct (Nat.ltb_spec i n) as [L|L].
  - rewrite answers_nth by exact L. split; [intros [= A B]|intros (_ & -> & B)].
    + split; [exact L|]. split; [exact A|]. destruct (q i); [discriminate|congruence].
    + destruct (q i); [contradiction|reflexivity].
  - rewrite answers_beyond by exact L. split; [discriminate|]. intros (A & _). lia.
Qed.
Lemma ready_one q c i : cm_active c = Some i -> (i < n)%nat ->
  exists c', read_ready (answers_of n present q) c = (match q i with [] => false | _ => true end, c', [CevPoll i (match q i with [] => false | _ => true end)]) /\ cm_active c' = Some i.
Proof.
  intros E L. unfold read_ready. rewrite E, answers_nth by exact L. cbn [snd]. destruct (q i).
  - eexists. split; [reflexivity|]. destruct (counts_in_bounds c); [reflexivity|exact E].
  - exists c. auto.
Qed.
Lemma read_one q c i : cm_active c = Some i -> (i < n)%nat ->
  exists c', cm_active c' = Some i /\
    comm_read [answers_of n present q] c = match q i with [] => CWaiting c' [CevPoll i false] | _ => CDone c' [CevPoll i true; CevRead i] end.
Proof.
  intros E L. destruct (ready_one q c i E L) as (c' & R & A). cbn [comm_read]. rewrite R. destruct (q i).
  - exists c'. auto.
  - exists (bump c'). rewrite bump_active. split; [exact A|]. fold (bump c'). rewrite bump_active, A. reflexivity.
Qed.
End Choice.

(** ** Traffic *)
Definition one_user (i : nat) (tr : list cev) : Prop := Forall (fun e => uses e = None \/ uses e = Some i) tr.
Lemma writes_app i a b : writes_to i (a ++ b) = writes_to i a ++ writes_to i b.
Proof. apply flat_map_app. Qed.
Lemma reads_app i a b : reads_of i (a ++ b) = (reads_of i a + reads_of i b)%nat.
Proof. unfold reads_of. rewrite filter_app, app_length. reflexivity. Qed.
Lemma writes_of i ws : writes_to i (map (CevWrite i) ws) = ws.
Proof. induction ws as [|w ws IH]; [reflexivity|]. cbn. rewrite Nat.eqb_refl. unfold writes_to in IH. rewrite IH. reflexivity. Qed.
Lemma writes_none i tr : Forall (fun e => uses e = None) tr -> writes_to i tr = [] /\ reads_of i tr = 0%nat.
Proof. induction 1 as [|e tr H _ (A & B)]; [auto|]. destruct e; try discriminate; cbn; auto. Qed.
Lemma reads_none i ws : reads_of i (map (CevWrite i) ws) = 0%nat.
Proof. induction ws; auto. Qed.
Lemma writes_use i ws : one_user i (map (CevWrite i) ws).
Proof. apply Forall_map, Forall_forall. intros w _. right. reflexivity. Qed.

Lemma shown_app a b : shown (a ++ b) = shown a + shown b.
Proof. induction a as [|e a IH]; cbn [Datatypes.app shown]; [reflexivity|]. destruct e; lia. Qed.

(** ** Performing *)
Section Hub.
Context (r : rom) (hw : hardware) (mem : list Z) (n : nat) (present : nat -> bool).
Local Notation chosen := (chosen n present).
Local Notation has_data := (has_data n present).

Definition replies_to (ms : list mop) (w : list Z) : Prop := w <> [] /\ exists m, In m ms /\ reply_ok m w.
Lemma replies_incl a b w : incl a b -> replies_to a w -> replies_to b w.
Proof. intros H (W & m & M & R). split; [exact W|]. exists m. auto. Qed.

Lemma hb_perform_sim op s ops tr i : history r hw mem ops (hb_app s) tr -> aop_ok op -> cm_active (hb_comm s) = Some i \/ op = AFrame ->
  match app_step r op (hb_app s) with
  | Fault f => hb_perform r op s = HbFault f
  | Done _ a o => exists ws, hb_perform r op s = HbDone (mkHub a (hb_comm s) (hb_meter s) (hb_queue s) (hb_rx s)) o (map (CevWrite i) ws) /\
      concat ws = sent o /\ Forall (replies_to (msgs [op])) ws
  end.
Proof.
  intros H Ho A. unfold hb_perform. destruct (app_step r op (hb_app s)) as [[] a o|f] eqn:E; [|reflexivity].
  assert (R := step_replies r hw mem ops op _ _ _ _ H Ho E). cbn [hb_bind]. unfold hb_reply. rewrite outgoing_sent. destruct (sent o) as [|x d] eqn:S.
  - exists []. cbn. rewrite app_nil_r. split; [reflexivity|]. split; [reflexivity|constructor].
  - destruct op as [m|]; [|discriminate R]. destruct A as [A|A]; [|discriminate]. cbn [hb_comm]. unfold comm_write. rewrite A. cbn [existsb id orb hb_set_comm hb_app hb_meter hb_queue hb_rx Datatypes.app].
    exists [x :: d]. rewrite app_nil_r. split; [reflexivity|]. split; [cbn; rewrite app_nil_r; reflexivity|]. constructor; [|constructor].
    split; [discriminate|]. exists m. split; [left; reflexivity|exact R].
Qed.
Lemma hb_performs_sim ms i : forall s ops tr, history r hw mem ops (hb_app s) tr -> Forall mop_ok ms -> cm_active (hb_comm s) = Some i ->
  match app_run r (map AMsg ms) (hb_app s) with
  | Fault f => hb_performs r (map AMsg ms) s = HbFault f
  | Done _ a o => exists ws, hb_performs r (map AMsg ms) s = HbDone (mkHub a (hb_comm s) (hb_meter s) (hb_queue s) (hb_rx s)) o (map (CevWrite i) ws) /\
      concat ws = sent o /\ Forall (replies_to ms) ws
  end.
Proof.
  induction ms as [|m ms IH]; intros s ops tr H Hm A.
  - cbn. exists []. destruct s. repeat split. constructor.
  - inversion Hm as [|? ? Hm1 Hm2]; subst. assert (P := hb_perform_sim (AMsg m) s ops tr i H Hm1 (or_introl A)).
    cbn [map hb_performs]. unfold app_run in *. cbn [runM]. unfold bind at 1. destruct (app_step r (AMsg m) (hb_app s)) as [[] a o|f] eqn:E; [|rewrite P; reflexivity].
    destruct P as (ws & P & C & F). rewrite P.
    assert (H1 := history_snoc _ _ _ _ (AMsg m) _ _ _ _ H Hm1 E).
    specialize (IH (mkHub a (hb_comm s) (hb_meter s) (hb_queue s) (hb_rx s)) _ _ H1 Hm2 A). cbn [hb_app hb_comm hb_meter hb_queue hb_rx] in IH. cbn [hb_bind].
    destruct (runM (app_step r) (map AMsg ms) a) as [[] a2 o2|f]; [|rewrite IH; reflexivity].
    destruct IH as (ws2 & -> & C2 & F2). exists (ws ++ ws2). rewrite map_app. split; [reflexivity|]. rewrite sent_app, concat_app, C, C2. split; [reflexivity|].
    apply Forall_app. split; [eapply Forall_impl; [|exact F]|eapply Forall_impl; [|exact F2]]; intros w; apply replies_incl; cbn; intros y [->|[]] || intros y Hy; [left; reflexivity|right; exact Hy].
Qed.

(** ** The invariant *)
Record going (evs : list hevent) (ops : list aop) (read : list Z) (o : list event) (s : hub) (tr : list cev) : Prop := mkGoing {
  go_choice : match cm_active (hb_comm s) with
              | None => unserved n present evs /\ read = [] /\ Forall (fun e => uses e = None) tr /\ forall j, hb_queue s j = arrivals j evs
              | Some i => chosen evs i /\ arrivals i evs = read ++ hb_queue s i /\ (forall j, j <> i -> hb_queue s j = arrivals j evs) /\
                  one_user i tr /\ concat (writes_to i tr) = sent o /\ reads_of i tr = length read /\ Forall (replies_to (msgs ops)) (writes_to i tr)
              end;
  go_silent : cm_active (hb_comm s) = None -> sent o = [];
  go_rx : receive [] None read = Ran (msgs ops) (hb_rx s) }.

Lemma receive_more read b ms ops st st' : receive [] None read = Ran ops st -> rx_byte (reset_action STARTUP_MIDI_SEQUENCE) st b = Ran ms st' ->
  receive [] None (read ++ [b]) = Ran (ops ++ ms) st'.
Proof.
  intros R B. unfold receive in *. rewrite rx_run_app, R. cbn [rx_run]. change (reset_action STARTUP_MIDI_SEQUENCE) with (reset_action []) in B. rewrite B.
  rewrite app_nil_r. reflexivity.
Qed.
Lemma receive_next read b ops st l rest : Forall msg_ok l -> receive [] None read = Ran ops st -> (read ++ [b]) ++ rest = stream l ->
  exists ms st', rx_byte (reset_action STARTUP_MIDI_SEQUENCE) st b = Ran ms st' /\ Forall mop_ok ms.
Proof.
  intros Hl R E. destruct (decoded l Hl _ _ E) as (l1 & l2 & st' & -> & D & _). assert (D' := D). unfold receive in D', R. rewrite rx_run_app, R in D'. cbn [rx_run] in D'.
  change (reset_action STARTUP_MIDI_SEQUENCE) with (reset_action []). destruct (rx_byte (reset_action []) st b) as [ms st2|] eqn:B; [|discriminate]. exists ms, st2. split; [reflexivity|].
  rewrite app_nil_r in D'. injection D' as D' _. apply Forall_app in Hl as [Hl _]. apply meanings_ok in Hl. rewrite <- D' in Hl. apply Forall_app in Hl as [_ Hl]. exact Hl.
Qed.

Context (a0 : app) (oa : list event) (H0 : history r hw mem [] a0 oa) (l : list msg) (Hl : Forall msg_ok l).

Definition sim (evs : list hevent) : Prop := exists ops read rest st, Forall aop_ok ops /\ read ++ rest = stream l /\ receive [] None read = Ran (msgs ops) st /\
  frames_done ops <= shown evs /\
  match app_run r ops a0 with
  | Fault f => hb_run r n present evs (hub_start a0) = HbFault f
  | Done _ a o => exists s tr, hb_run r n present evs (hub_start a0) = HbDone s o tr /\ hb_app s = a /\ going evs ops read o s tr
  end.

Lemma hb_run_snoc evs e s : hb_run r n present (evs ++ [e]) s = hb_bind (hb_run r n present evs s) (hb_step r n present e).
Proof.
  revert s. induction evs as [|x evs IH]; intros s; cbn [hb_run Datatypes.app].
  - cbn [hb_bind]. destruct (hb_step r n present e s) as [s1 o1 t1|f]; [|reflexivity]. cbn [hb_bind hb_run]. rewrite !app_nil_r. reflexivity.
  - destruct (hb_step r n present x s) as [s1 o1 t1|f]; [|reflexivity]. cbn [hb_bind]. rewrite IH. destruct (hb_run r n present evs s1) as [s2 o2 t2|f]; [|reflexivity]. cbn [hb_bind].
    destruct (hb_step r n present e s2) as [s3 o3 t3|f]; [|reflexivity]. rewrite <- !app_assoc. reflexivity.
Qed.

(** A byte is read from the transport in use. *)
Lemma hb_read_sim s ops o read i b q rest : history r hw mem ops (hb_app s) o -> cm_active (hb_comm s) = Some i -> (i < n)%nat -> hb_queue s i = b :: q ->
  receive [] None read = Ran (msgs ops) (hb_rx s) -> (read ++ [b]) ++ rest = stream l ->
  exists ms st, receive [] None (read ++ [b]) = Ran (msgs ops ++ ms) st /\ Forall mop_ok ms /\
    match app_run r (map AMsg ms) (hb_app s) with
    | Fault f => hb_read r n present s = HbFault f
    | Done _ a o' => exists c ws, cm_active c = Some i /\ hb_read r n present s = HbDone (mkHub a c (hb_meter s) (put (hb_queue s) i q) st) o' (CevPoll i true :: CevRead i :: map (CevWrite i) ws) /\
        concat ws = sent o' /\ Forall (replies_to ms) ws
    end.
Proof.
  intros H A L Q R E. destruct (receive_next _ _ _ _ _ _ Hl R E) as (ms & st & B & Hm). exists ms, st. split; [exact (receive_more _ _ _ _ _ _ R B)|]. split; [exact Hm|].
  unfold hb_read. destruct (read_one n present (hb_queue s) (hb_comm s) i A L) as (c & Ac & ->). rewrite Q, Ac, Q, B. cbn [hb_bind Datatypes.app].
  assert (P := hb_performs_sim ms i (mkHub (hb_app s) c (hb_meter s) (put (hb_queue s) i q) st) ops o H Hm Ac). cbn [hb_app hb_comm hb_meter hb_queue hb_rx] in P.
  destruct (app_run r (map AMsg ms) (hb_app s)) as [[] a o'|f]; [|rewrite P; reflexivity]. destruct P as (ws & -> & C & F). exists c, ws. auto.
Qed.
Lemma put_same q i x : put q i x i = x.
Proof. unfold put. rewrite Nat.eqb_refl. reflexivity. Qed.
Lemma put_other q i x j : j <> i -> put q i x j = q j.
Proof. intros H. unfold put. destruct (Nat.eqb_spec j i); [contradiction|reflexivity]. Qed.
Lemma arrivals_snoc j evs e : arrivals j (evs ++ [e]) = arrivals j evs ++ match e with HArrive i b => if Nat.eqb i j then [b] else [] | _ => [] end.
Proof. rewrite arrivals_app. unfold arrivals at 2. cbn [flat_map]. rewrite app_nil_r. reflexivity. Qed.
Lemma going_poll evs ops read o s tr i c t : cm_active (hb_comm s) = Some i -> cm_active c = Some i -> going evs ops read o s tr -> Forall (fun e => uses e = None) t ->
  going (evs ++ [HPoll]) ops read o (hb_set_comm s c) (tr ++ t).
Proof.
  intros A Ac [G1 G2 G3] T. rewrite A in G1. destruct G1 as (C & Q & J & U & W & N & F). destruct (writes_none i t T) as (T1 & T2).
  constructor; cbn [hb_set_comm hb_comm hb_queue hb_rx].
  - rewrite Ac. split; [exact (chosen_more _ _ _ _ _ C)|]. rewrite arrivals_snoc, app_nil_r. split; [exact Q|].
    split; [intros j Hj; rewrite arrivals_snoc, app_nil_r; exact (J j Hj)|]. split; [apply Forall_app; split; [exact U|eapply Forall_impl; [|exact T]; auto]|].
    rewrite writes_app, T1, app_nil_r, reads_app, T2, Nat.add_0_r. auto.
  - congruence.
  - exact G3.
Qed.
Lemma going_read evs ops read o s tr i b q a c ms st o' ws t : going evs ops read o s tr -> cm_active (hb_comm s) = Some i \/ (cm_active (hb_comm s) = None /\ chosen (evs ++ [HPoll]) i) ->
  cm_active c = Some i -> hb_queue s i = b :: q ->
  receive [] None (read ++ [b]) = Ran (msgs ops ++ ms) st -> concat ws = sent o' -> Forall (replies_to ms) ws -> Forall (fun e => uses e = None) t ->
  going (evs ++ [HPoll]) (ops ++ map AMsg ms) (read ++ [b]) (o ++ o') (mkHub a c (hb_meter s) (put (hb_queue s) i q) st) (tr ++ t ++ CevPoll i true :: CevRead i :: map (CevWrite i) ws).
Proof.
  intros [G1 G2 G3] A Ac Q R Cw Fw T. destruct (writes_none i t T) as (T1 & T2).
  assert (K : chosen (evs ++ [HPoll]) i /\ arrivals i evs = read ++ b :: q /\ (forall j, j <> i -> hb_queue s j = arrivals j evs) /\ one_user i tr /\
    concat (writes_to i tr) = sent o /\ reads_of i tr = length read /\ Forall (replies_to (msgs ops)) (writes_to i tr)).
  { destruct A as [A|[A Ch]].
    - rewrite A in G1. destruct G1 as (C & Qi & J & U & W & N & F). rewrite Q in Qi. split; [exact (chosen_more _ _ _ _ _ C)|tauto].
    - rewrite A in G1. destruct G1 as (_ & -> & U & J). destruct (writes_none i tr U) as (W1 & W2). rewrite W1, W2, (G2 A). split; [exact Ch|].
      split; [cbn; rewrite <- Q; symmetry; apply J|]. split; [intros j _; apply J|]. split; [eapply Forall_impl; [|exact U]; auto|]. split; [reflexivity|]. split; [reflexivity|constructor]. }
  destruct K as (Ch & Qi & J & U & W & N & F). constructor; cbn [hb_comm hb_queue hb_rx].
  - rewrite Ac. split; [exact Ch|]. rewrite put_same, arrivals_snoc, app_nil_r, Qi, <- app_assoc. split; [reflexivity|].
    split; [intros j Hj; rewrite put_other by exact Hj; rewrite arrivals_snoc, app_nil_r; exact (J j Hj)|].
    split; [apply Forall_app; split; [exact U|]; apply Forall_app; split; [eapply Forall_impl; [|exact T]; auto|]; constructor; [left; reflexivity|]; constructor; [right; reflexivity|]; apply writes_use|].
    rewrite !writes_app, !reads_app, T1, T2, msgs_app, msgs_map, sent_app, concat_app.
    change (writes_to i (CevPoll i true :: CevRead i :: map (CevWrite i) ws)) with (writes_to i (map (CevWrite i) ws)). rewrite writes_of.
    assert (X : reads_of i (CevPoll i true :: CevRead i :: map (CevWrite i) ws) = 1%nat).
    { unfold reads_of. cbn [filter]. rewrite Nat.eqb_refl. cbn [length]. f_equal. exact (reads_none i ws). }
    rewrite X. cbn [Datatypes.app]. rewrite W, Cw, N, app_length. split; [reflexivity|]. split; [cbn; lia|].
    apply Forall_app. split; (eapply Forall_impl; [|eassumption]); intros w; apply replies_incl; [apply incl_appl|apply incl_appr]; apply incl_refl.
  - congruence.
  - rewrite msgs_app, msgs_map. exact R.
Qed.

Lemma app_run_more ops ops' : app_run r (ops ++ ops') a0 = match app_run r ops a0 with Fault f => Fault f | Done _ a o => match app_run r ops' a with Fault f => Fault f | Done x a' o' => Done x a' (o ++ o') end end.
Proof. unfold app_run. rewrite runM_app. unfold bind. destruct (runM (app_step r) ops a0); reflexivity. Qed.
Lemma history_here ops a o : Forall aop_ok ops -> app_run r ops a0 = Done tt a o -> history r hw mem ops a (oa ++ o).
Proof.
  intros Ho E. destruct H0 as (Hr & Hm & _ & Eb). split; [exact Hr|]. split; [exact Hm|]. split; [exact Ho|]. rewrite (boot_then _ _ _ _ _ ops Eb), E. reflexivity.
Qed.

Lemma sim_all evs : (forall i, chosen evs i -> exists rest, arrivals i evs ++ rest = stream l) -> sim evs.
Proof.
  induction evs as [|e evs IH] using rev_ind; intros Hc.
  { exists [], [], (stream l), None. split; [constructor|]. split; [reflexivity|]. split; [reflexivity|]. split; [cbn; lia|]. cbn. exists (hub_start a0), [].
    split; [reflexivity|]. split; [reflexivity|]. constructor; cbn; auto. split; [apply unserved_nil|]. repeat split. constructor. }
  destruct IH as (ops & read & rest & st & Ho & Er & Rx & Fr & IH).
  { intros i C. destruct (Hc i (chosen_more _ _ _ _ _ C)) as (rest & E). rewrite arrivals_app, <- app_assoc in E. eauto. }
  assert (Sh : shown evs <= shown (evs ++ [e])) by (rewrite shown_app; destruct e; cbn; lia).
  destruct (app_run r ops a0) as [[] a o|f] eqn:Ea.
  2:{ exists ops, read, rest, st. split; [exact Ho|]. split; [exact Er|]. split; [exact Rx|]. split; [lia|]. rewrite Ea, hb_run_snoc, IH. reflexivity. }
  destruct IH as (s & tr & Es & <- & G). assert (H := history_here _ _ _ Ho Ea).
  assert (Same : forall s' t, hb_step r n present e s = HbDone s' [] t -> hb_app s' = hb_app s -> going (evs ++ [e]) ops read o s' (tr ++ t) -> sim (evs ++ [e])).
  { intros s' t E1 E2 G'. exists ops, read, rest, st. split; [exact Ho|]. split; [exact Er|]. split; [exact Rx|]. split; [lia|]. rewrite Ea, hb_run_snoc, Es. cbn [hb_bind]. rewrite E1.
    exists s', (tr ++ t). rewrite app_nil_r. auto. }
  assert (Take : forall i t s1 q b, e = HPoll -> cm_active (hb_comm s) = Some i \/ (cm_active (hb_comm s) = None /\ chosen (evs ++ [HPoll]) i) -> cm_active (hb_comm s1) = Some i -> (i < n)%nat ->
    hb_app s1 = hb_app s -> hb_queue s1 = hb_queue s -> hb_rx s1 = hb_rx s -> hb_meter s1 = hb_meter s ->
    hb_queue s i = b :: q -> hb_step r n present e s = hb_bind (HbDone s1 [] t) (hb_read r n present) -> Forall (fun e => uses e = None) t -> sim (evs ++ [e])).
  { intros i t s1 q b -> A A1 L E1 E2 E3 E4 Q St T.
    assert (Ch : chosen (evs ++ [HPoll]) i /\ arrivals i evs = read ++ b :: q).
    { destruct G as [G _ _]. destruct A as [A|[A Ch]]; rewrite A in G.
      - destruct G as (C & Qi & _). rewrite Q in Qi. split; [exact (chosen_more _ _ _ _ _ C)|exact Qi].
      - destruct G as (_ & -> & _ & J). split; [exact Ch|]. rewrite <- J. exact Q. }
    destruct Ch as (Ch & Qi). destruct (Hc i Ch) as (rest' & E). rewrite arrivals_snoc, app_nil_r, Qi, <- app_assoc in E.
    assert (E' : (read ++ [b]) ++ (q ++ rest') = stream l) by (rewrite <- E, <- app_assoc; reflexivity).
    destruct (hb_read_sim s1 ops (oa ++ o) read i b q (q ++ rest')) as (ms & st' & R' & Hm & P); try assumption; try (rewrite ?E1, ?E2, ?E3; assumption || exact (go_rx _ _ _ _ _ _ G)).
    exists (ops ++ map AMsg ms), (read ++ [b]), (q ++ rest'), st'. split; [apply Forall_app; split; [exact Ho|apply Forall_map; exact Hm]|]. split; [exact E'|].
    rewrite msgs_app, msgs_map. split; [exact R'|]. split; [rewrite frames_app, frames_map; lia|]. rewrite app_run_more, Ea, hb_run_snoc, Es. cbn [hb_bind]. rewrite St. cbn [hb_bind].
    rewrite E1 in P. destruct (app_run r (map AMsg ms) (hb_app s)) as [[] a' o'|f]; [|rewrite P; reflexivity]. destruct P as (c & ws & Ac & -> & Cw & Fw).
    do 2 eexists. split; [reflexivity|]. split; [reflexivity|]. rewrite E2, E4. cbn [Datatypes.app]. eapply going_read; eassumption. }
  destruct e as [i b| |d].
  - (* a byte arrives *)
    eapply Same; [reflexivity|reflexivity|]. rewrite app_nil_r. destruct G as [G1 G2 G3]. constructor; cbn [hb_comm hb_queue hb_rx]; [|exact G2|exact G3].
    assert (J : forall j, hb_queue s j = arrivals j evs -> put (hb_queue s) i (hb_queue s i ++ [b]) j = arrivals j (evs ++ [HArrive i b])).
    { intros j E. rewrite arrivals_snoc. destruct (Nat.eqb_spec i j) as [->|N]; [rewrite put_same, E; reflexivity|]. rewrite put_other by auto. rewrite app_nil_r. exact E. }
    destruct (cm_active (hb_comm s)) as [k|].
    + destruct G1 as (C & Q & Jo & K). split; [exact (chosen_more _ _ _ _ _ C)|]. split; [|split; [intros j Hj; apply J, Jo, Hj|exact K]].
      rewrite arrivals_snoc, Q. destruct (Nat.eqb_spec i k) as [->|N]; [rewrite put_same, <- app_assoc; reflexivity|]. rewrite put_other by auto. rewrite app_nil_r. reflexivity.
    + destruct G1 as (U & E & T & Jo). split; [apply unserved_other; [discriminate|exact U]|]. split; [exact E|]. split; [exact T|]. intros j. apply J, Jo.
  - (* a poll *)
    destruct (cm_active (hb_comm s)) as [i|] eqn:A.
    + assert (L : (i < n)%nat). { destruct G as [G1 _ _]. rewrite A in G1. exact (proj1 (chosen_there _ _ _ _ (proj1 G1))). }
      destruct (hb_queue s i) as [|b q] eqn:Q.
      * destruct (ready_one n present (hb_queue s) (hb_comm s) i A L) as (c1 & R1 & A1). destruct (read_one n present (hb_queue s) (hb_comm s) i A L) as (c2 & A2 & R2).
        rewrite Q in R1, R2. destruct (hb_rx s) eqn:X.
        -- eapply (Same _ [CevPoll i false]); [cbn [hb_step]; unfold hb_poll; rewrite X; unfold hb_read; rewrite R2; reflexivity|reflexivity|].
           apply (going_poll _ _ _ _ _ _ i); [exact A|exact A2|exact G|repeat constructor].
        -- eapply (Same _ [CevPoll i false]); [cbn [hb_step]; unfold hb_poll; rewrite X, R1; reflexivity|reflexivity|].
           apply (going_poll _ _ _ _ _ _ i); [exact A|exact A1|exact G|repeat constructor].
      * destruct (ready_one n present (hb_queue s) (hb_comm s) i A L) as (c1 & R1 & A1). rewrite Q in R1. destruct (hb_rx s) eqn:X.
        -- apply (Take i [] s q b); auto. cbn [hb_step]. unfold hb_poll. rewrite X. cbn [hb_bind]. destruct (hb_read r n present s); reflexivity.
        -- apply (Take i [CevPoll i true] (hb_set_comm s c1) q b); auto. cbn [hb_step]. unfold hb_poll. rewrite X, R1. reflexivity.
    + assert (G' := G). destruct G' as [G1 G2 G3]. rewrite A in G1. destruct G1 as (U & Ek & T & J). assert (X : hb_rx s = None). { rewrite Ek in G3. cbn in G3. injection G3 as _ G3. congruence. }
      assert (D : forall j, offers (answers_of n present (hb_queue s)) j <-> has_data j evs). { intros j. rewrite offers_iff, J. reflexivity. }
      destruct (offer_dec (answers_of n present (hb_queue s))) as [(i & F)|N].
      * destruct (ready_first _ (hb_comm s) i A F) as (c1 & t & R1 & A1 & T1). assert (F' := F). destruct F' as (F1 & F2). assert (O := proj1 (offers_iff _ _ _ _) F1). destruct O as (L & _ & Q).
        destruct (hb_queue s i) as [|b q] eqn:Qi; [contradiction|].
        apply (Take i (t ++ [CevPoll i true]) (hb_set_comm s c1) q b); auto.
        -- right. split; [reflexivity|]. apply chosen_poll; [exact U|apply D, F1|]. intros j Hj Hd. apply D in Hd. exact (F2 j Hj Hd).
        -- cbn [hb_step]. unfold hb_poll. rewrite X, R1. reflexivity.
        -- apply Forall_app. split; [exact (idle_no_uses _ T1)|repeat constructor].
      * destruct (ready_none _ (hb_comm s) A N) as (t & R1 & T1). eapply (Same _ t); [cbn [hb_step]; unfold hb_poll; rewrite X, R1; cbn [hb_bind Datatypes.app]; rewrite app_nil_r; reflexivity|reflexivity|].
        constructor; cbn [hb_set_comm hb_comm hb_queue hb_rx]; [|exact G2|exact G3]. rewrite A. split; [apply unserved_poll; [exact U|]; intros j Hd; apply D in Hd; exact (N j Hd)|].
        split; [exact Ek|]. split; [apply Forall_app; split; [exact T|exact (idle_no_uses _ T1)]|]. intros j. rewrite arrivals_snoc, app_nil_r. apply J.
  - (* a frame *)
    destruct (hb_rx s) eqn:X.
    + eapply (Same s []); [cbn [hb_step]; rewrite X; reflexivity|reflexivity|]. rewrite app_nil_r. destruct G as [G1 G2 G3]. constructor; [|exact G2|exact G3].
      destruct (cm_active (hb_comm s)) as [k|].
      * destruct G1 as (C & Q & Jo & K). split; [exact (chosen_more _ _ _ _ _ C)|]. rewrite arrivals_snoc, app_nil_r. split; [exact Q|]. split; [|exact K]. intros j Hj. rewrite arrivals_snoc, app_nil_r. auto.
      * destruct G1 as (U & E & T & Jo). split; [apply unserved_other; [discriminate|exact U]|]. split; [exact E|]. split; [exact T|]. intros j. rewrite arrivals_snoc, app_nil_r. auto.
    + exists (ops ++ [AFrame]), read, rest, st. split; [apply Forall_app; split; [exact Ho|repeat constructor]|]. split; [exact Er|]. rewrite msgs_app, app_nil_r. split; [exact Rx|].
      split; [rewrite frames_app, shown_app; cbn; lia|]. rewrite app_run_more, Ea, hb_run_snoc, Es. cbn [hb_bind hb_step]. rewrite X.
      assert (P := hb_perform_sim AFrame s ops (oa ++ o) (match cm_active (hb_comm s) with Some i => i | None => 0%nat end) H Logic.I (or_intror eq_refl)).
      unfold app_run. cbn [runM]. unfold bind. assert (Sn := step_replies r hw mem ops AFrame (hb_app s) (oa ++ o)).
      destruct (app_step r AFrame (hb_app s)) as [[] a' o'|f]; [|rewrite P; reflexivity]. specialize (Sn _ _ H Logic.I eq_refl). cbn beta iota in Sn.
      destruct P as (ws & -> & Cw & Fw). assert (Ws : ws = []). { destruct ws as [|w ws]; [reflexivity|]. inversion Fw as [|? ? (Wn & m & Wm & _) _]; subst. contradiction Wm. }
      subst ws. cbn [map hb_bind hb_comm hb_meter hb_app hb_queue hb_rx]. unfold ret. assert (La := load_frame_active d (hb_comm s, hb_meter s)). assert (Le := load_frame_events d (hb_comm s, hb_meter s)).
      destruct (load_frame d (hb_comm s, hb_meter s)) as [[c m] t]. cbn [fst snd] in La, Le. do 2 eexists. split; [reflexivity|]. split; [reflexivity|].
      assert (Te : Forall (fun e => uses e = None) t). { eapply Forall_impl; [|exact Le]. intros [ | | | ]; try contradiction. reflexivity. }
      destruct G as [G1 G2 G3]. constructor; cbn [hb_comm hb_queue hb_rx Datatypes.app]; rewrite ?app_nil_r, ?sent_app, ?Sn, ?app_nil_r, ?msgs_app, ?app_nil_r; [|rewrite La; exact G2|exact G3].
      rewrite La. destruct (cm_active (hb_comm s)) as [k|].
      * destruct G1 as (C & Q & Jo & U & W & N & F). destruct (writes_none k t Te) as (T1 & T2). split; [exact (chosen_more _ _ _ _ _ C)|]. rewrite arrivals_snoc, app_nil_r. split; [exact Q|].
        split; [intros j Hj; rewrite arrivals_snoc, app_nil_r; auto|]. rewrite writes_app, reads_app, T1, T2, app_nil_r, Nat.add_0_r.
        split; [apply Forall_app; split; [exact U|eapply Forall_impl; [|exact Te]; auto]|]. split; [exact W|]. split; [exact N|]. exact F.
      * destruct G1 as (U & E & T & Jo). split; [apply unserved_other; [discriminate|exact U]|]. split; [exact E|]. split; [apply Forall_app; auto|]. intros j. rewrite arrivals_snoc, app_nil_r. auto.
Qed.
End Hub.

(** ** C109 *)
Section Runs.
Context (r : rom) (hw : hardware) (mem : list Z) (n : nat) (present : nat -> bool) (evs : list hevent).
Local Notation chosen := (chosen n present evs).

Lemma hub_going l s out tr : hub_running r hw mem n present evs s out tr -> brings_in n present evs l ->
  exists ops read rest, history r hw mem ops (hb_app s) out /\ read ++ rest = stream l /\ frames_done ops <= shown evs /\ going n present evs ops read out s tr.
Proof.
  intros (Hr & Hm & a & o1 & o2 & Eb & Er & ->) (Hl & Hc).
  assert (H0 : history r hw mem [] a o1) by (split; [exact Hr|split; [exact Hm|split; [constructor|exact Eb]]]).
  destruct (sim_all r hw mem n present a o1 H0 l Hl evs Hc) as (ops & read & rest & st & Ho & E & R & F & P).
  destruct (app_run r ops a) as [[] a' o|f] eqn:Ea; [|congruence]. destruct P as (s' & tr' & P & Ea' & G). rewrite Er in P. injection P as <- -> <-.
  exists ops, read, rest. rewrite Ea'. split; [exact (history_here r hw mem a o1 H0 _ _ _ Ho Ea)|]. split; [exact E|]. split; [exact F|].
  destruct G as [G1 G2 G3]. constructor; [|intros A; rewrite sent_app, (boot_silent _ _ _ _ _ Hr Hm Eb); exact (G2 A)|exact G3].
  destruct (cm_active (hb_comm s)); [|exact G1]. rewrite sent_app, (boot_silent _ _ _ _ _ Hr Hm Eb). exact G1.
Qed.
Theorem hub_choice l s out tr : hub_running r hw mem n present evs s out tr -> brings_in n present evs l ->
  (forall i, cm_active (hb_comm s) = Some i <-> chosen i) /\ Forall (fun e => forall i, uses e = Some i -> chosen i) tr.
Proof.
  intros H B. destruct (hub_going l s out tr H B) as (ops & read & rest & _ & _ & _ & [G _ _]). destruct (cm_active (hb_comm s)) as [i|].
  - destruct G as (C & _ & _ & U & _). split.
    + intros j. split; [intros [= <-]; exact C|intros D; f_equal; exact (chosen_unique n present evs i j C D)].
    + eapply Forall_impl; [|exact U]. intros e [E|E] j Hj; rewrite E in Hj; [discriminate|]. injection Hj as <-. exact C.
  - destruct G as (U & _ & T & _). split.
    + intros j. split; [discriminate|]. intros D. exfalso. exact (unserved_not n present evs j U D).
    + eapply Forall_impl; [|exact T]. intros e E j Hj. congruence.
Qed.
Theorem hub_performs l s out tr : hub_running r hw mem n present evs s out tr -> brings_in n present evs l ->
  exists l1 l2 read ops, l = l1 ++ l2 /\ has_read l1 l2 read /\ history r hw mem ops (hb_app s) out /\ msgs ops = meanings [] l1 /\ frames_done ops <= shown evs /\
    (forall i, chosen i -> arrivals i evs = read ++ hb_queue s i /\ reads_of i tr = length read) /\ ((forall i, ~ chosen i) -> read = []) /\
    (forall j, ~ chosen j -> hb_queue s j = arrivals j evs).
Proof.
  intros H B. destruct (hub_going l s out tr H B) as (ops & read & rest & Hh & E & F & [G1 _ G3]). destruct (decoded l (proj1 B) _ _ E) as (l1 & l2 & st & -> & D & Hd).
  rewrite D in G3. injection G3 as G3 _. exists l1, l2, read, ops. split; [reflexivity|]. split; [exact Hd|]. split; [exact Hh|]. split; [congruence|]. split; [exact F|].
  destruct (cm_active (hb_comm s)) as [i|].
  - destruct G1 as (C & Q & J & _ & _ & N & _). split; [|split].
    + intros j Cj. rewrite (chosen_unique n present evs j i Cj C). auto.
    + intros X. contradiction (X i C).
    + intros j Cj. apply J. intros ->. exact (Cj C).
  - destruct G1 as (U & -> & _ & J). split; [intros i C; contradiction (unserved_not n present evs i U C)|]. split; [reflexivity|]. intros j _. apply J.
Qed.
Theorem hub_all l s out tr i : hub_running r hw mem n present evs s out tr -> Forall msg_ok l -> chosen i -> arrivals i evs = stream l -> hb_queue s i = [] ->
  exists ops, history r hw mem ops (hb_app s) out /\ msgs ops = meanings [] l.
Proof.
  intros H Hl C E Q. assert (B : brings_in n present evs l). { split; [exact Hl|]. intros j Cj. rewrite (chosen_unique n present evs j i Cj C). exists []. rewrite app_nil_r. exact E. }
  destruct (hub_choice l s out tr H B) as (A & _). apply A in C. destruct (hub_going l s out tr H B) as (ops & read & rest & Hh & _ & _ & [G1 _ G3]). rewrite C in G1.
  destruct G1 as (_ & G & _). rewrite Q, app_nil_r, E in G. subst read. exists ops. split; [exact Hh|].
  assert (D : receive [] None (stream l) = Ran (meanings [] l) None) by exact (c03 [] l (conj (Forall_nil _) (Forall_nil _)) Hl). rewrite D in G3. injection G3 as G3 _. congruence.
Qed.
Theorem hub_replies l s out tr : hub_running r hw mem n present evs s out tr -> brings_in n present evs l ->
  exists ops, history r hw mem ops (hb_app s) out /\ ((forall i, ~ chosen i) -> sent out = []) /\
    forall i, chosen i -> concat (writes_to i tr) = sent out /\ Forall (fun w => w <> [] /\ exists m, In (AMsg m) ops /\ reply_ok m w) (writes_to i tr).
Proof.
  intros H B. destruct (hub_choice l s out tr H B) as (A & _). destruct (hub_going l s out tr H B) as (ops & read & rest & Hh & _ & _ & [G1 G2 _]). exists ops. split; [exact Hh|]. split.
  - intros N. apply G2. destruct (cm_active (hb_comm s)) as [i|]; [|reflexivity]. contradiction (N i). apply A. reflexivity.
  - intros i C. apply A in C. rewrite C in G1. destruct G1 as (_ & _ & _ & _ & W & _ & F). split; [exact W|]. eapply Forall_impl; [|exact F].
    intros w (X & m & M & R). split; [exact X|]. exists m. split; [apply in_msgs, M|exact R].
Qed.
Theorem hub_runs_on l : rom_ok r -> mem_ok mem -> brings_in n present evs l -> Forall calm (meanings [] l) -> exists s out tr, hub_running r hw mem n present evs s out tr.
Proof.
  intros Hr Hm (Hl & Hc) Ca. destruct (app_main_ok r hw mem Hr Hm) as (a & o1 & Eb & _). apply boot_nothing in Eb.
  assert (H0 : history r hw mem [] a o1) by (split; [exact Hr|split; [exact Hm|split; [constructor|exact Eb]]]).
  destruct (sim_all r hw mem n present a o1 H0 l Hl evs Hc) as (ops & read & rest & st & Ho & E & R & F & P).
  destruct (decoded l Hl _ _ E) as (l1 & l2 & st' & -> & D & _). rewrite D in R. injection R as R _.
  assert (Cm : Forall calm (msgs ops)). { rewrite <- R. unfold meanings in *. rewrite flat_map_app in Ca. apply Forall_app in Ca as [Ca _]. exact Ca. }
  destruct (history_dacless r hw mem ops Hr Hm Ho) as (a' & o' & (_ & _ & _ & H')).
  - intros m Hin. rewrite Forall_forall in Cm. apply Cm, in_msgs, Hin.
  - intros m Hin. rewrite Forall_forall in Cm. apply Cm, in_msgs, Hin.
  - rewrite (boot_then _ _ _ _ _ ops Eb) in H'. destruct (app_run r ops a) as [[] a2 o2|f]; [|discriminate]. destruct P as (s & tr & P & _ & _).
    exists s, (o1 ++ o2), tr. split; [exact Hr|]. split; [exact Hm|]. exists a, o1, o2. auto.
Qed.
End Runs.
