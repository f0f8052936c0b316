From Verif Require Import Base BaseLemmas CommModel CommSpec.

Definition only (i : nat) (o : list cev) : Prop := Forall (fun e => touches e = Some i \/ touches e = None) o.
Definition idle_polls (o : list cev) : Prop :=
  Forall (fun e => match e with CevPoll _ b => b = false | CevShow _ => True | _ => False end) o.

(** ** Scanning *)
Lemma scan_spec a : forall k, let (r, o) := scan k a in
  match r with
  | Some i => exists j o1, i = (k + j)%nat /\ first_offer a j /\ o = o1 ++ [CevPoll i true] /\ idle_polls o1
  | None => no_offer a /\ idle_polls o
  end.
Proof.
  induction a as [|[p r] a IH]; intros k; cbn [scan].
  - split; [|constructor]. intros i. unfold offers. destruct i; discriminate.
  - destruct p.
    + destruct r.
      * exists 0%nat, []. split; [lia|]. split; [|split; [reflexivity|constructor]].
        split; [reflexivity|]. lia.
      * specialize (IH (S k)). destruct (scan (S k) a) as [[i|] o].
        -- destruct IH as (j & o1 & -> & (F1 & F2) & -> & I1). exists (S j), (CevPoll k false :: o1).
           split; [lia|]. split; [|split; [reflexivity|constructor; [reflexivity|exact I1]]].
           split; [exact F1|]. intros [|j'] Hj; [discriminate|]. apply F2. lia.
        -- destruct IH as (N & I1). split; [|constructor; [reflexivity|exact I1]].
           intros [|i]; [discriminate|apply N].
    + specialize (IH (S k)). destruct (scan (S k) a) as [[i|] o].
      * destruct IH as (j & o1 & -> & (F1 & F2) & -> & I1). exists (S j), o1.
        split; [lia|]. split; [|split; [reflexivity|exact I1]].
        split; [exact F1|]. intros [|j'] Hj; [discriminate|]. apply F2. lia.
      * destruct IH as (N & I1). split; [|exact I1]. intros [|i]; [discriminate|apply N].
Qed.

(** ** Polls *)
Lemma ready_locked a c i : cm_active c = Some i ->
  exists b c', read_ready a c = (b, c', [CevPoll i b]) /\ cm_active c' = Some i.
Proof.
  intros E. unfold read_ready. rewrite E. destruct (snd (nth i a (false, false))).
  - exists true, c. auto.
  - eexists false, _. split; [reflexivity|]. destruct (counts_in_bounds c); [reflexivity|exact E].
Qed.
Lemma ready_none a c : cm_active c = None -> no_offer a ->
  exists o, read_ready a c = (false, c, o) /\ idle_polls o.
Proof.
  intros E N. unfold read_ready. rewrite E. assert (S := scan_spec a 0).
  destruct (scan 0 a) as [[i|] o].
  - destruct S as (j & _ & _ & (F & _) & _). exfalso. exact (N j F).
  - exists o. split; [reflexivity|tauto].
Qed.
Lemma first_offer_unique a i j : first_offer a i -> first_offer a j -> i = j.
Proof.
  intros (A1 & A2) (B1 & B2). destruct (Nat.lt_trichotomy i j) as [L|[L|L]]; [|exact L|].
  - exfalso. exact (B2 i L A1).
  - exfalso. exact (A2 j L B1).
Qed.
Lemma ready_first a c i : cm_active c = None -> first_offer a i ->
  exists c' o, read_ready a c = (true, c', o ++ [CevPoll i true]) /\ cm_active c' = Some i /\ idle_polls o.
Proof.
  intros E F. unfold read_ready. rewrite E. assert (S := scan_spec a 0).
  destruct (scan 0 a) as [[k|] o].
  - destruct S as (j & o1 & -> & Fj & -> & I1). cbn [Nat.add]. rewrite (first_offer_unique a j i Fj F).
    do 2 eexists. split; [reflexivity|]. split; [reflexivity|exact I1].
  - destruct S as (N & _). exfalso. exact (N i (proj1 F)).
Qed.

(** ** Reads *)
Definition bump (c1 : comm) : comm :=
  if counts_in_bounds c1 then mkComm (cm_active c1) (cm_idle c1) (u16 (cm_reads c1 + 1)) else c1.
Lemma bump_active c : cm_active (bump c) = cm_active c.
Proof. unfold bump. destruct (counts_in_bounds c); reflexivity. Qed.

Fixpoint last_ev (last : option cev) (o : list cev) : option cev :=
  match o with [] => last | e :: t => last_ev (Some e) t end.
Lemma reads_served_app o1 : forall last o2, reads_served last o1 -> reads_served (last_ev last o1) o2 ->
  reads_served last (o1 ++ o2).
Proof. induction o1 as [|e o1 IH]; cbn; intros last o2 H1 H2; [exact H2|]. split; [tauto|apply IH; tauto]. Qed.
(** Blocks of events that stand on their own. *)
Definition served (o : list cev) : Prop := forall last, reads_served last o.
Lemma served_app o1 o2 : served o1 -> served o2 -> served (o1 ++ o2).
Proof. intros H1 H2 last. apply reads_served_app; [apply H1|apply H2]. Qed.
Lemma served_noread o : Forall (fun e => match e with CevRead _ => False | _ => True end) o -> served o.
Proof.
  intros H last. revert last. induction H as [|e o He H IH]; intros last; cbn; [exact I|].
  split; [destruct e; tauto|apply IH].
Qed.
Lemma idle_noread o : idle_polls o -> Forall (fun e => match e with CevRead _ => False | _ => True end) o.
Proof. apply Forall_impl. intros [ | | | ]; tauto. Qed.

Lemma read_locked l i : forall c, cm_active c = Some i ->
  match comm_read l c with
  | CDone c' o | CWaiting c' o => cm_active c' = Some i /\ only i o /\ served o
  | CFault _ => False
  end.
Proof.
  induction l as [|a l IH]; intros c E; cbn [comm_read].
  - split; [exact E|]. split; [constructor|intros ?; exact I].
  - destruct (ready_locked a c i E) as (b & c' & R & E'). rewrite R. destruct b.
    + fold (bump c'). rewrite bump_active, E'.
      split; [rewrite bump_active; exact E'|]. split; [repeat constructor; auto|].
      intros last. cbn. auto.
    + specialize (IH c' E'). destruct (comm_read l c') as [c2 o2|c2 o2|f]; [| |exact IH];
        (split; [tauto|]); (split; [apply Forall_app; split; [repeat constructor; auto|tauto]|]);
        (apply served_app; [apply served_noread; repeat constructor|tauto]).
Qed.

Lemma read_none l : forall c, cm_active c = None -> Forall no_offer l ->
  exists o, comm_read l c = CWaiting c o /\ idle_polls o.
Proof.
  induction l as [|a l IH]; intros c E H; cbn [comm_read].
  - exists []. split; [reflexivity|constructor].
  - inversion H; subst. destruct (ready_none a c E) as (o & R & Io); [assumption|]. rewrite R.
    destruct (IH c E) as (o2 & R2 & I2); [assumption|]. rewrite R2.
    exists (o ++ o2). split; [reflexivity|]. apply Forall_app; auto.
Qed.

Lemma read_first pre a post i : forall c, cm_active c = None -> Forall no_offer pre -> first_offer a i ->
  exists c' o, comm_read (pre ++ a :: post) c = CDone c' (o ++ [CevPoll i true; CevRead i]) /\
    cm_active c' = Some i /\ idle_polls o.
Proof.
  induction pre as [|b pre IH]; intros c E H F; cbn [app comm_read].
  - destruct (ready_first a c i E F) as (c' & o & R & E' & Io). rewrite R. fold (bump c').
    rewrite bump_active, E'. exists (bump c'), o. split; [rewrite <- app_assoc; reflexivity|].
    rewrite bump_active. auto.
  - inversion H; subst. destruct (ready_none b c E) as (o & R & Io); [assumption|]. rewrite R.
    destruct (IH c E) as (c' & o2 & R2 & E2 & I2); try assumption. rewrite R2.
    exists c', (o ++ o2). split; [rewrite <- app_assoc; reflexivity|]. split; [assumption|].
    apply Forall_app; auto.
Qed.

(** ** Histories *)
Lemma load_frame_active d s : cm_active (fst (fst (load_frame d s))) = cm_active (fst s).
Proof.
  destruct s as [c m]. unfold load_frame.
  destruct (FRAMES_BEFORE_UPDATE_LOAD_PERCENT <=? u16 (lm_calc m + d));
    destruct (FRAMES_BEFORE_UPDATE_LOAD <=? u16 (lm_load m + d)); reflexivity.
Qed.
Lemma load_frame_events d s : Forall (fun e => match e with CevShow _ => True | _ => False end) (snd (load_frame d s)).
Proof.
  destruct s as [c m]. unfold load_frame.
  destruct (FRAMES_BEFORE_UPDATE_LOAD_PERCENT <=? u16 (lm_calc m + d));
    destruct (FRAMES_BEFORE_UPDATE_LOAD <=? u16 (lm_load m + d)); repeat constructor.
Qed.

Lemma run_locked i ops : forall s, cm_active (fst s) = Some i ->
  match load_run ops s with
  | LDone s' o | LWaiting s' o => cm_active (fst s') = Some i /\ only i o /\ served o
  | LFault _ => False
  end.
Proof.
  induction ops as [|op ops IH]; intros s E; cbn [load_run].
  - split; [exact E|]. split; [constructor|intros ?; exact I].
  - assert (P : match load_step op s with
                | LDone s' o | LWaiting s' o => cm_active (fst s') = Some i /\ only i o /\ served o
                | LFault _ => False end).
    { destruct op as [a|l|w d|d]; cbn [load_step].
      - destruct (ready_locked a (fst s) i E) as (b & c' & R & E'). rewrite R.
        split; [exact E'|]. split; [repeat constructor; auto|apply served_noread; repeat constructor].
      - assert (Q := read_locked l i (fst s) E). destruct (comm_read l (fst s)); exact Q.
      - unfold comm_write. rewrite E. destruct (existsb id w); cbn [of_comm fst];
          (split; [exact E|]); (split; [repeat constructor; auto|apply served_noread; repeat constructor]).
      - assert (A := load_frame_active d s). assert (F := load_frame_events d s).
        destruct (load_frame d s) as [s' o]. cbn [fst snd] in *.
        split; [rewrite A; exact E|]. split.
        + eapply Forall_impl; [|exact F]. intros [| | |]; cbn; tauto.
        + apply served_noread. eapply Forall_impl; [|exact F]. intros [| | |]; cbn; tauto. }
    destruct (load_step op s) as [s1 o1|s1 o1|f]; [|exact P|exact P].
    destruct P as (E1 & P2 & P3). specialize (IH s1 E1).
    destruct (load_run ops s1) as [s2 o2|s2 o2|f]; [| |exact IH];
      (split; [tauto|]); (split; [apply Forall_app; tauto|apply served_app; tauto]).
Qed.

(** Until a transport offers data. *)
Lemma run_none ops : forall s, cm_active (fst s) = None -> Forall no_offer (polls ops) ->
  match load_run ops s with
  | LDone s' o | LWaiting s' o => cm_active (fst s') = None /\ idle_polls o
  | LFault f => f = F_null
  end.
Proof.
  induction ops as [|op ops IH]; intros s E H; cbn [load_run].
  - split; [exact E|constructor].
  - assert (H' : Forall no_offer (match op with LPoll a => [a] | LRead l => l | _ => [] end) /\ Forall no_offer (polls ops)).
    { apply Forall_app. exact H. }
    destruct H' as (H1 & H2).
    assert (P : match load_step op s with
                | LDone s' o | LWaiting s' o => cm_active (fst s') = None /\ idle_polls o
                | LFault f => f = F_null end).
    { destruct op as [a|l|w d|d]; cbn [load_step].
      - inversion H1; subst. destruct (ready_none a (fst s) E) as (o & R & Io); [assumption|]. rewrite R. auto.
      - destruct (read_none l (fst s) E H1) as (o & R & Io). rewrite R. cbn. auto.
      - unfold comm_write. rewrite E. reflexivity.
      - assert (A := load_frame_active d s). assert (F := load_frame_events d s).
        destruct (load_frame d s) as [s' o]. cbn [fst snd] in *. split; [rewrite A; exact E|].
        eapply Forall_impl; [|exact F]. intros [| | |]; cbn; tauto. }
    destruct (load_step op s) as [s1 o1|s1 o1|f]; [|exact P|exact P].
    destruct P as (E1 & P2). specialize (IH s1 E1 H2).
    destruct (load_run ops s1) as [s2 o2|s2 o2|f]; [| |exact IH]; (split; [tauto|]); apply Forall_app; tauto.
Qed.

Lemma run_first pre a post i ops : forall s, cm_active (fst s) = None -> polls ops = pre ++ a :: post ->
  Forall no_offer pre -> first_offer a i ->
  match load_run ops s with
  | LDone s' o => cm_active (fst s') = Some i /\ exists o1 o3, o = o1 ++ CevPoll i true :: o3 /\
                    idle_polls o1 /\ only i o3 /\ served (CevPoll i true :: o3)
  | LWaiting s' o => (cm_active (fst s') = None /\ idle_polls o) \/
                  (cm_active (fst s') = Some i /\ exists o1 o3, o = o1 ++ CevPoll i true :: o3 /\
                    idle_polls o1 /\ only i o3 /\ served (CevPoll i true :: o3))
  | LFault f => f = F_null
  end.
Proof.
  revert pre. induction ops as [|op ops IH]; intros pre s E Hp H F.
  - cbn in Hp. destruct pre; discriminate.
  - change (polls (op :: ops)) with ((match op with LPoll a => [a] | LRead l => l | _ => [] end) ++ polls ops) in Hp.
    set (mine := match op with LPoll a => [a] | LRead l => l | _ => [] end) in *.
    cbn [load_run].
    (* does the offer come in this operation? *)
    assert (D : (exists tail, mine = pre ++ a :: tail) \/ (exists pre', pre = mine ++ pre' /\ polls ops = pre' ++ a :: post)).
    { clearbody mine. revert pre Hp H. induction mine as [|x mine IHm]; intros pre Hp H.
      - right. exists pre. auto.
      - destruct pre as [|y pre].
        + left. exists mine. cbn in Hp. injection Hp as -> _. reflexivity.
        + cbn in Hp. injection Hp as -> Hp. inversion H; subst.
          destruct (IHm pre Hp) as [(t & ->)|(p' & -> & Q)]; [assumption| |].
          * left. exists t. reflexivity.
          * right. exists p'. auto. }
    destruct D as [(tail & Em)|(pre' & -> & Hp')].
    + (* locks here *)
      assert (P : exists s1 o1 o3, load_step op s = LDone s1 (o1 ++ CevPoll i true :: o3) /\
                  cm_active (fst s1) = Some i /\ idle_polls o1 /\ only i o3 /\ served (CevPoll i true :: o3)).
      { destruct op as [b|l|w d|d]; subst mine.
        - destruct pre as [|x pre]; [|destruct pre; discriminate]. injection Em as -> _.
          destruct (ready_first a (fst s) i E F) as (c' & o & R & E' & Io).
          cbn [load_step]. rewrite R. exists (c', snd s), o, []. split; [reflexivity|].
          split; [exact E'|]. split; [exact Io|]. split; [constructor|apply served_noread; repeat constructor].
        - subst l. destruct (read_first pre a tail i (fst s) E H F) as (c' & o & R & E' & Io).
          cbn [load_step]. rewrite R. exists (c', snd s), o, [CevRead i]. split; [reflexivity|].
          split; [exact E'|]. split; [exact Io|]. split; [repeat constructor; auto|].
          intros last. cbn. auto.
        - destruct pre; discriminate.
        - destruct pre; discriminate. }
      destruct P as (s1 & o1 & o3 & -> & E1 & I1 & O3 & S3).
      assert (Q := run_locked i ops s1 E1).
      destruct (load_run ops s1) as [s2 o2|s2 o2|f]; [| |destruct Q]; [|right];
        (split; [tauto|]); exists o1, (o3 ++ o2); (split; [rewrite <- app_assoc; reflexivity|]);
        (split; [exact I1|]); (split; [apply Forall_app; tauto|]);
        apply (served_app (CevPoll i true :: o3) o2); tauto.
    + apply Forall_app in H. destruct H as (Hm & Hpre').
      assert (P : match load_step op s with
                  | LDone s' o | LWaiting s' o => cm_active (fst s') = None /\ idle_polls o
                  | LFault f => f = F_null end).
      { assert (R := run_none [op] s E). cbn [load_run] in R.
        assert (Hq : Forall no_offer (polls [op])) by (unfold polls; cbn [flat_map]; rewrite app_nil_r; exact Hm).
        specialize (R Hq). destruct (load_step op s) as [s1 o1|s1 o1|f]; [rewrite app_nil_r in R|..]; exact R. }
      destruct (load_step op s) as [s1 o1|s1 o1|f]; [|left; exact P|exact P].
      destruct P as (E1 & I1). specialize (IH pre' s1 E1 Hp' Hpre' F).
      destruct (load_run ops s1) as [s2 o2|s2 o2|f]; [| |exact IH].
      * destruct IH as (E2 & oa & ob & -> & Ia & Ob). split; [exact E2|].
        exists (o1 ++ oa), ob. split; [rewrite <- app_assoc; reflexivity|]. split; [apply Forall_app; auto|exact Ob].
      * destruct IH as [(E2 & I2)|(E2 & oa & ob & -> & Ia & Ob)].
        -- left. split; [exact E2|]. apply Forall_app; auto.
        -- right. split; [exact E2|].
           exists (o1 ++ oa), ob. split; [rewrite <- app_assoc; reflexivity|]. split; [apply Forall_app; auto|exact Ob].
Qed.

(** ** C50 *)
Lemma idle_no_uses o : idle_polls o -> Forall (fun e => uses e = None) o.
Proof. apply Forall_impl. intros [| | |]; cbn; tauto. Qed.

Lemma c50_before ops : Forall no_offer (polls ops) ->
  Forall (fun e => uses e = None) (events (load_run ops (comm0, meter0))) /\
  forall s, end_state (load_run ops (comm0, meter0)) = Some s -> cm_active (fst s) = None.
Proof.
  intros H. assert (R := run_none ops (comm0, meter0) eq_refl H).
  destruct (load_run ops (comm0, meter0)) as [s o|s o|f]; cbn [events end_state];
    [split; [apply idle_no_uses; tauto|intros s' Es; injection Es as <-; tauto]..|split; [constructor|discriminate]].
Qed.

Lemma c50_lock ops pre a post i : polls ops = pre ++ a :: post -> Forall no_offer pre -> first_offer a i ->
  forall s o, load_run ops (comm0, meter0) = LDone s o ->
  cm_active (fst s) = Some i /\
  exists o1 o2, o = o1 ++ CevPoll i true :: o2 /\
    Forall (fun e => uses e = None) o1 /\ Forall (fun e => touches e = Some i \/ touches e = None) o2.
Proof.
  intros Hp H F s o E. assert (R := run_first pre a post i ops (comm0, meter0) eq_refl Hp H F).
  rewrite E in R. destruct R as (A & o1 & o3 & -> & I1 & O3 & _). split; [exact A|].
  exists o1, o3. split; [reflexivity|]. split; [apply idle_no_uses; exact I1|exact O3].
Qed.

(** Where the offer is found, if there is one. *)
Lemma offer_dec a : (exists i, first_offer a i) \/ no_offer a.
Proof.
  assert (S := scan_spec a 0). destruct (scan 0 a) as [[i|] o].
  - destruct S as (j & _ & _ & F & _). left. exists j. exact F.
  - right. tauto.
Qed.
Lemma offers_split l : Forall no_offer l \/ exists pre a post i, l = pre ++ a :: post /\ Forall no_offer pre /\ first_offer a i.
Proof.
  induction l as [|a l IH]; [left; constructor|]. destruct (offer_dec a) as [(i & F)|N].
  - right. exists [], a, l, i. repeat split; [constructor|apply F..].
  - destruct IH as [H|(pre & b & post & i & -> & H & F)].
    + left. constructor; assumption.
    + right. exists (a :: pre), b, post, i. split; [reflexivity|]. split; [constructor; assumption|exact F].
Qed.

Lemma c50_served ops : reads_served None (events (load_run ops (comm0, meter0))).
Proof.
  destruct (offers_split (polls ops)) as [H|(pre & a & post & i & Hp & H & F)].
  - assert (R := run_none ops (comm0, meter0) eq_refl H).
    destruct (load_run ops (comm0, meter0)) as [s o|s o|f]; cbn [events];
      [apply served_noread, idle_noread; tauto..|exact I].
  - assert (R := run_first pre a post i ops (comm0, meter0) eq_refl Hp H F).
    assert (K : forall o1 o3, idle_polls o1 -> served (CevPoll i true :: o3) -> reads_served None (o1 ++ CevPoll i true :: o3)).
    { intros o1 o3 I1 S3. apply served_app; [apply served_noread, idle_noread; exact I1|exact S3]. }
    destruct (load_run ops (comm0, meter0)) as [s o|s o|f]; cbn [events].
    + destruct R as (_ & o1 & o3 & -> & I1 & _ & S3). apply K; assumption.
    + destruct R as [(_ & I1)|(_ & o1 & o3 & -> & I1 & _ & S3)];
        [apply served_noread, idle_noread; exact I1|apply K; assumption].
    + exact I.
Qed.

(** All uses, at any point of any history, are of one transport. *)
Lemma c50_one ops : exists i, Forall (fun e => uses e = None \/ uses e = Some i) (events (load_run ops (comm0, meter0))).
Proof.
  assert (U : forall i o, only i o -> Forall (fun e => uses e = None \/ uses e = Some i) o).
  { intros i o. apply Forall_impl. intros [| | |]; cbn; intuition congruence. }
  assert (U0 : forall i o, idle_polls o -> Forall (fun e => uses e = None \/ uses e = Some i) o).
  { intros i o. apply Forall_impl. intros [| | |]; cbn; tauto. }
  destruct (offers_split (polls ops)) as [H|(pre & a & post & i & Hp & H & F)].
  - exists 0%nat. assert (R := run_none ops (comm0, meter0) eq_refl H).
    destruct (load_run ops (comm0, meter0)) as [s o|s o|f]; cbn [events]; [apply U0; tauto..|constructor].
  - exists i. assert (R := run_first pre a post i ops (comm0, meter0) eq_refl Hp H F).
    assert (K : forall o1 o3, idle_polls o1 -> only i o3 -> Forall (fun e => uses e = None \/ uses e = Some i) (o1 ++ CevPoll i true :: o3)).
    { intros o1 o3 I1 O3. apply Forall_app. split; [apply U0; exact I1|].
      constructor; [left; reflexivity|apply U; exact O3]. }
    destruct (load_run ops (comm0, meter0)) as [s o|s o|f]; cbn [events].
    + destruct R as (_ & o1 & o3 & -> & I1 & O3 & _). apply K; assumption.
    + destruct R as [(_ & I1)|(_ & o1 & o3 & -> & I1 & O3 & _)]; [apply U0; exact I1|apply K; assumption].
    + constructor.
Qed.

Lemma run_app ops1 : forall ops2 s, load_run (ops1 ++ ops2) s =
  match load_run ops1 s with
  | LDone s1 o1 => match load_run ops2 s1 with
                   | LDone s2 o2 => LDone s2 (o1 ++ o2) | LWaiting s2 o2 => LWaiting s2 (o1 ++ o2) | LFault f => LFault f end
  | r => r
  end.
Proof.
  induction ops1 as [|op ops1 IH]; intros ops2 s; cbn [app load_run].
  - destruct (load_run ops2 s); reflexivity.
  - destruct (load_step op s) as [s1 o1|s1 o1|f]; [|reflexivity..]. rewrite IH.
    destruct (load_run ops1 s1) as [s2 o2|s2 o2|f]; [|reflexivity..].
    destruct (load_run ops2 s2); rewrite ?app_assoc; reflexivity.
Qed.

(** A write with no transport chosen. *)
Lemma c50_write_early ops s o w data rest : Forall no_offer (polls ops) ->
  load_run ops (comm0, meter0) = LDone s o ->
  load_run (ops ++ LWrite w data :: rest) (comm0, meter0) = LFault F_null.
Proof.
  intros H E. rewrite run_app, E. assert (R := run_none ops (comm0, meter0) eq_refl H). rewrite E in R.
  cbn [load_run load_step]. unfold comm_write. rewrite (proj1 R). reflexivity.
Qed.
(** Otherwise nothing fails. *)
Lemma c50_safe ops f : load_run ops (comm0, meter0) = LFault f ->
  exists pre w data rest, ops = pre ++ LWrite w data :: rest /\
    exists s o, load_run pre (comm0, meter0) = LDone s o /\ cm_active (fst s) = None.
Proof.
  generalize (comm0, meter0) as s0. induction ops as [|op ops IH]; intros s0 E; [discriminate|].
  cbn [load_run] in E.
  destruct (load_step op s0) as [s1 o1|s1 o1|g] eqn:Es; [|discriminate|].
  - destruct (load_run ops s1) as [s2 o2|s2 o2|g] eqn:Er; try discriminate.
    injection E as ->. destruct (IH s1 Er) as (pre & w & d & rest & -> & s & o & R & A).
    exists (op :: pre), w, d, rest. split; [reflexivity|]. exists s, (o1 ++ o). cbn [load_run]. rewrite Es, R. auto.
  - destruct op as [a|l|w d|d]; cbn [load_step] in Es.
    + destruct (read_ready a (fst s0)) as [[? ?] ?]. discriminate.
    + exfalso. destruct (cm_active (fst s0)) as [i|] eqn:A.
      * assert (Q := read_locked l i (fst s0) A). destruct (comm_read l (fst s0)); try discriminate. exact Q.
      * destruct (offers_split l) as [H|(pre & a & post & i & -> & H & F)].
        -- destruct (read_none l (fst s0) A H) as (o & R & _). rewrite R in Es. discriminate.
        -- destruct (read_first pre a post i (fst s0) A H F) as (c' & o & R & _). rewrite R in Es. discriminate.
    + exists [], w, d, ops. split; [reflexivity|]. exists s0, []. split; [reflexivity|].
      unfold comm_write in Es. destruct (cm_active (fst s0)); [|reflexivity].
      destruct (existsb id w); discriminate.
    + destruct (load_frame d s0). discriminate.
Qed.

(** ** C51 *)
Definition counts_ok (c : comm) : Prop := 0 <= cm_idle c <= 0x28F /\ 0 <= cm_reads c <= 0x28F.
Definition meter_ok (m : meter) : Prop := lm_sum m = 0 /\ lm_calc m = lm_load m /\ 0 <= lm_load m < 15.

Lemma u16_small z : 0 <= z < 65536 -> u16 z = z.
Proof. intros. unfold u16. apply Z.mod_small. exact H. Qed.

Lemma in_bounds_lt c : counts_ok c -> counts_in_bounds c = true -> cm_idle c < 0x28F /\ cm_reads c < 0x28F.
Proof.
  unfold counts_ok, counts_in_bounds, MAX_COMM_IDLE, MAX_COMM_BUSY. intros H B.
  apply andb_prop in B. destruct B as (B1 & B2).
  destruct (Z.eqb_spec (cm_idle c) 655), (Z.eqb_spec (cm_reads c) 655); try discriminate; lia.
Qed.
Lemma ready_counts a c : counts_ok c -> counts_ok (snd (fst (read_ready a c))).
Proof.
  intros H. unfold read_ready. destruct (cm_active c).
  - destruct (snd (nth n a (false, false))); [exact H|]. cbn [fst snd].
    destruct (counts_in_bounds c) eqn:B; [|exact H]. destruct (in_bounds_lt c H B). unfold counts_ok in *.
    cbn [cm_idle cm_reads]. rewrite u16_small by lia. lia.
  - destruct (scan 0 a) as [[i|] o]; exact H.
Qed.
Lemma bump_counts c : counts_ok c -> counts_ok (bump c).
Proof.
  intros H. unfold bump. destruct (counts_in_bounds c) eqn:B; [|exact H]. destruct (in_bounds_lt c H B).
  unfold counts_ok in *. cbn [cm_idle cm_reads]. rewrite u16_small by lia. lia.
Qed.
Lemma read_counts l : forall c, counts_ok c ->
  match comm_read l c with CDone c' _ | CWaiting c' _ => counts_ok c' | CFault _ => True end.
Proof.
  induction l as [|a l IH]; intros c H; cbn [comm_read]; [exact H|].
  assert (R := ready_counts a c H). destruct (read_ready a c) as [[b c1] o]. cbn [fst snd] in R. destruct b.
  - fold (bump c1). destruct (cm_active (bump c1)); [|exact I]. apply bump_counts. exact R.
  - specialize (IH c1 R). destruct (comm_read l c1); exact IH.
Qed.

Lemma percent_ok c : counts_ok c ->
  load_percent c = (if (cm_idle c + cm_reads c =? 0) then 0 else 100 * cm_reads c / (cm_idle c + cm_reads c)) /\
  0 <= load_percent c <= 100.
Proof.
  intros (H1 & H2). unfold load_percent.
  destruct (Z.eqb_spec (cm_idle c) 0) as [E1|E1]; destruct (Z.eqb_spec (cm_reads c) 0) as [E2|E2]; cbn [andb].
  1: { rewrite E1, E2. split; [reflexivity|lia]. }
  all: replace (cm_idle c + cm_reads c =? 0) with false by lia.
  all: rewrite (Z.mul_comm (cm_reads c) 100).
  all: assert (D : 0 <= 100 * cm_reads c / (cm_idle c + cm_reads c) <= 100)
         by (split; [apply Z.div_pos; lia|apply Z.div_le_upper_bound; nia]).
  all: rewrite u16_small by lia; split; [reflexivity|exact D].
Qed.

Lemma load_frame_ok d s : 0 <= d < 65536 -> counts_ok (fst s) -> meter_ok (snd s) ->
  counts_ok (fst (fst (load_frame d s))) /\ meter_ok (snd (fst (load_frame d s))) /\
  (snd (load_frame d s) = [] \/ snd (load_frame d s) = [CevShow (load_percent (fst s))]).
Proof.
  destruct s as [c m]. cbn [fst snd]. intros Hd Hc (M1 & M2 & M3). unfold load_frame.
  unfold FRAMES_BEFORE_UPDATE_LOAD_PERCENT, FRAMES_BEFORE_UPDATE_LOAD.
  assert (P := percent_ok c Hc). rewrite M2.
  assert (Hu : 0 <= u16 (lm_load m + d) < 65536) by (unfold u16; apply Z.mod_pos_bound; lia).
  destruct (Z.leb_spec 15 (u16 (lm_load m + d))) as [L|L]; cbn [fst snd].
  - split; [unfold counts_ok; cbn; lia|]. split; [unfold meter_ok; cbn; lia|].
    right. rewrite M1. cbn [Z.add]. rewrite u16_small by lia. change (15 / 15) with 1. rewrite Z.div_1_r. reflexivity.
  - split; [exact Hc|]. split; [unfold meter_ok; cbn; lia|]. left. reflexivity.
Qed.

Definition shows_ok (o : list cev) : Prop :=
  Forall (fun e => match e with CevShow p => 0 <= p <= 100 | _ => True end) o.

Lemma scan_no_shows a : forall k, shows_ok (snd (scan k a)).
Proof.
  induction a as [|[p r] a IH]; intros k; cbn [scan]; [constructor|].
  destruct p; [destruct r; [repeat constructor|]|apply IH].
  specialize (IH (S k)). destruct (scan (S k) a). constructor; [exact I|exact IH].
Qed.
Lemma ready_no_shows a c : shows_ok (snd (read_ready a c)).
Proof.
  unfold read_ready. destruct (cm_active c).
  - destruct (snd (nth n a (false, false))); repeat constructor.
  - assert (S := scan_no_shows a 0). destruct (scan 0 a) as [[i|] o]; exact S.
Qed.
Lemma read_no_shows l : forall c, match comm_read l c with CDone _ o | CWaiting _ o => shows_ok o | CFault _ => True end.
Proof.
  induction l as [|a l IH]; intros c; cbn [comm_read]; [constructor|].
  assert (R := ready_no_shows a c). destruct (read_ready a c) as [[b c1] o]. cbn [snd] in R. destruct b.
  - match goal with |- context [match ?x with Some _ => _ | None => _ end] => destruct x end;
      [|exact I]. apply Forall_app. split; [exact R|repeat constructor].
  - specialize (IH c1). destruct (comm_read l c1); [| |exact I]; apply Forall_app; auto.
Qed.

Lemma load_step_ok op s : lop_ok op -> counts_ok (fst s) -> meter_ok (snd s) ->
  match load_step op s with
  | LDone s' o | LWaiting s' o => counts_ok (fst s') /\ meter_ok (snd s') /\ shows_ok o
  | LFault _ => True
  end.
Proof.
  intros Ho Hc Hm. destruct op as [a|l|w d|d]; cbn [load_step].
  - assert (A := ready_counts a (fst s) Hc). assert (B := ready_no_shows a (fst s)).
    destruct (read_ready a (fst s)) as [[b c] o]. cbn in *. auto.
  - assert (A := read_counts l (fst s) Hc). assert (B := read_no_shows l (fst s)).
    destruct (comm_read l (fst s)); cbn [of_comm fst snd]; auto.
  - unfold comm_write. destruct (cm_active (fst s)); [|exact I].
    destruct (existsb id w); cbn [of_comm fst snd]; repeat split; try apply Hc; try apply Hm; repeat constructor.
  - destruct (load_frame_ok d s Ho Hc Hm) as (A & B & C). destruct (load_frame d s) as [s' o]. cbn [fst snd] in *.
    split; [exact A|]. split; [exact B|]. destruct C as [->| ->]; repeat constructor; apply (percent_ok _ Hc).
Qed.

Lemma load_run_ok ops : forall s, Forall lop_ok ops -> counts_ok (fst s) -> meter_ok (snd s) ->
  match load_run ops s with
  | LDone s' o | LWaiting s' o => counts_ok (fst s') /\ meter_ok (snd s') /\ shows_ok o
  | LFault _ => True
  end.
Proof.
  induction ops as [|op ops IH]; intros s Ho Hc Hm; cbn [load_run].
  - split; [exact Hc|]. split; [exact Hm|constructor].
  - inversion Ho; subst. assert (P := load_step_ok op s H1 Hc Hm).
    destruct (load_step op s) as [s1 o1|s1 o1|f]; [|exact P|exact I].
    destruct P as (A & B & C). specialize (IH s1 H2 A B).
    destruct (load_run ops s1) as [s2 o2|s2 o2|f]; [| |exact I];
      (split; [tauto|]); (split; [tauto|]); apply Forall_app; tauto.
Qed.

Lemma start_ok : counts_ok comm0 /\ meter_ok meter0.
Proof. unfold counts_ok, meter_ok; cbn; lia. Qed.

Lemma c51 ops : Forall lop_ok ops ->
  Forall (fun e => match e with CevShow p => 0 <= p <= 100 | _ => True end) (events (load_run ops (comm0, meter0))) /\
  forall s, end_state (load_run ops (comm0, meter0)) = Some s ->
    0 <= cm_idle (fst s) <= 0x28F /\ 0 <= cm_reads (fst s) <= 0x28F.
Proof.
  intros H. destruct start_ok as (A & B). assert (R := load_run_ok ops (comm0, meter0) H A B).
  destruct (load_run ops (comm0, meter0)) as [s o|s o|f]; cbn [events end_state].
  - split; [tauto|]. intros s' E. injection E as <-. apply R.
  - split; [tauto|]. intros s' E. injection E as <-. apply R.
  - split; [constructor|discriminate].
Qed.

(** What is shown is the share of reads among the polls counted. *)
Lemma c51_meaning ops s o d : Forall lop_ok ops -> 0 <= d < 65536 ->
  load_run ops (comm0, meter0) = LDone s o ->
  forall s' o', load_step (LFrame d) s = LDone s' o' ->
  o' = [] \/
  o' = [CevShow (if cm_idle (fst s) + cm_reads (fst s) =? 0 then 0
                 else 100 * cm_reads (fst s) / (cm_idle (fst s) + cm_reads (fst s)))] /\
  cm_idle (fst s') = 0 /\ cm_reads (fst s') = 0.
Proof.
  intros H Hd E s' o' Es. destruct start_ok as (A & B). assert (R := load_run_ok ops (comm0, meter0) H A B).
  rewrite E in R. destruct R as (Hc & Hm & _). destruct s as [c m]. cbn [load_step fst snd] in *.
  destruct Hm as (M1 & M2 & M3). unfold load_frame in Es. rewrite M2 in Es.
  unfold FRAMES_BEFORE_UPDATE_LOAD_PERCENT, FRAMES_BEFORE_UPDATE_LOAD in Es.
  assert (P := percent_ok c Hc).
  destruct (Z.leb_spec 15 (u16 (lm_load m + d))) as [L|L].
  - injection Es as <- <-. right. split; [|cbn; auto]. rewrite M1. cbn [Z.add].
    rewrite u16_small by lia. change (15 / 15) with 1. rewrite Z.div_1_r. rewrite (proj1 P). reflexivity.
  - injection Es as <- <-. left. reflexivity.
Qed.

Lemma c51_leds p : 0 <= p <= 100 -> 0 <= leds_lit p <= 4 /\ 0 <= load_text p <= 99 /\ (leds_lit p = 0 <-> p = 0).
Proof.
  intros H. unfold leds_lit, load_text. change (100 / 4) with 25.
  assert (D : 0 <= p / 25 <= 4) by (split; [apply Z.div_pos; lia|apply Z.div_le_upper_bound; lia]).
  destruct (Z.eqb_spec p 0); destruct (Z.ltb_spec 99 p); lia.
Qed.
