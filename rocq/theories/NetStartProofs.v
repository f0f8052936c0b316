From Verif Require Import Base BaseLemmas IpUtilModel IpUtilSpec RingBufModel RingBufSpec RingBufProofs RtpModel AppleModel NetModel NetSpec NetProofs NetStartModel NetStartSpec WifiNetProofs MidiModel.

Lemma eqb_zero x : negb (x =? MW_ERR_NONE) = false <-> x = 0.
Proof. unfold MW_ERR_NONE. destruct (Z.eqb_spec x 0); cbn; split; intros; congruence. Qed.
Ltac ask x := let E := fresh "E" in destruct (negb (x =? MW_ERR_NONE)) eqn:E; [assert (x <> 0) by (intros Q; apply eqb_zero in Q; congruence)|apply eqb_zero in E].

Theorem listens_iff a : snd (start_network a) = true <-> usable a.
Proof.
  unfold start_network, init_mega_wifi, detect_mw, listen_on_udp_port, usable. change CH_CONTROL_PORT with 1. change CH_MIDI_PORT with 2.
  destruct (an_uart a); [|cbn; split; [discriminate|intuition discriminate]].
  ask (an_init a); [cbn; split; [discriminate|tauto]|]. ask (an_detect a); [cbn; split; [discriminate|tauto]|]. cbn [negb]. destruct (associate_ap a) as [o2 e2].
  ask (an_ip a); [cbn; split; [discriminate|tauto]|]. ask (an_udp a 1); [cbn; split; [discriminate|tauto]|]. ask (an_udp a 2); [cbn; split; [discriminate|tauto]|].
  cbn. tauto.
Qed.

(** The messages. *)
Theorem told_which a : an_uart a = true ->
  if snd (start_network a) then In (LListening (uint32_to_ip_str (an_addr a)) 5006) (fst (start_network a)) /\ (forall e, In e (fst (start_network a)) -> ~ warning e)
  else (exists e, In e (fst (start_network a)) /\ warning e) /\ forall x p, ~ In (LListening x p) (fst (start_network a)).
Proof.
  intros U. unfold start_network, init_mega_wifi, detect_mw, listen_on_udp_port. rewrite U.
  assert (A : forall e, In e (fst (associate_ap a)) -> ~ warning e /\ forall x p, e <> LListening x p).
  { unfold associate_ap. destruct (negb _); cbn; intros e H; repeat destruct H as [<-|H]; try contradiction; (split; [intros []|discriminate]). }
  ask (an_init a).
  { cbn. split; [eexists; split; [right; right; left; reflexivity|exact Logic.I]|]. intros x p H1. repeat destruct H1 as [H1|H1]; try discriminate; contradiction. }
  ask (an_detect a).
  { cbn. split; [eexists; split; [do 5 right; left; reflexivity|exact Logic.I]|]. intros x p H1. repeat destruct H1 as [H1|H1]; try discriminate; contradiction. }
  cbn [negb]. destruct (associate_ap a) as [o2 e2]. cbn [fst] in A.
  assert (B : forall e l, In e ((SYield :: ([SInit; STask] ++ ([LDetecting; SDetect; LFound (fst (an_version a)) (snd (an_version a)); SYield]) ++ [SYield] ++ o2 ++ [SGetIp]) ++ l)) ->
    In e l \/ (~ warning e /\ forall x p, e <> LListening x p)).
  { intros e l H. cbn in H. rewrite <- app_assoc in H. repeat (destruct H as [<-|H]; [right; split; [intros []|discriminate]|]).
    apply in_app_or in H as [H|H]; [right; exact (A e H)|]. cbn in H. destruct H as [<-|H]; [right; split; [intros []|discriminate]|left; exact H]. }
  ask (an_ip a).
  { cbn [fst snd]. split; [exists LNoIp; split; [|exact Logic.I]; right; apply in_or_app; right; left; reflexivity|]. intros x p H1. apply B in H1 as [H1|[_ H1]]; [|exact (H1 x p eq_refl)].
    destruct H1 as [H1|[]]; discriminate. }
  change CH_CONTROL_PORT with 1. change CH_MIDI_PORT with 2. ask (an_udp a 1).
  { cbn [fst snd]. split; [exists (LNoUdp (print_u 5 UDP_CONTROL_PORT)); split; [|exact Logic.I]; right; apply in_or_app; right; right; left; reflexivity|]. intros x p H1. apply B in H1 as [H1|[_ H1]]; [|exact (H1 x p eq_refl)].
    cbn in H1. repeat destruct H1 as [H1|H1]; try discriminate; contradiction. }
  ask (an_udp a 2).
  { cbn [fst snd]. split; [exists (LNoUdp (print_u 5 UDP_MIDI_PORT)); split; [|exact Logic.I]; right; apply in_or_app; right; right; right; left; reflexivity|]. intros x p H1. apply B in H1 as [H1|[_ H1]]; [|exact (H1 x p eq_refl)].
    cbn in H1. repeat destruct H1 as [H1|H1]; try discriminate; contradiction. }
  cbn [fst snd]. split.
  - right. apply in_or_app. right. cbn. auto.
  - intros e H. apply B in H as [H|[H _]]; [|exact H]. cbn in H. repeat destruct H as [<-|H]; try (intros []); contradiction.
Qed.

Lemma port_5006 : decimal (print_u 5 5006) 5006.
Proof. split; [discriminate|]. split; [|split; [reflexivity|intros; discriminate]]. cbv. repeat (apply Forall_cons; [split; discriminate|]). apply Forall_nil. Qed.
Lemma port_5007 : decimal (print_u 5 5007) 5007.
Proof. split; [discriminate|]. split; [|split; [reflexivity|intros; discriminate]]. cbv. repeat (apply Forall_cons; [split; discriminate|]). apply Forall_nil. Qed.
Theorem ports_opened a : snd (start_network a) = true -> exists p1 p2, ports (fst (start_network a)) = [(1, p1); (2, p2)] /\ decimal p1 5006 /\ decimal p2 5007.
Proof.
  intros H. apply listens_iff in H as (U & H1 & H2 & H3 & H4 & H5). exists (print_u 5 5006), (print_u 5 5007). split; [|split; [exact port_5006|exact port_5007]].
  unfold start_network, init_mega_wifi, detect_mw, listen_on_udp_port. change CH_CONTROL_PORT with 1. change CH_MIDI_PORT with 2. rewrite U, H1, H2, H3, H4, H5. cbn [MW_ERR_NONE Z.eqb negb fst snd].
  unfold associate_ap. destruct (negb (an_assoc a =? MW_ERR_NONE)); reflexivity.
Qed.
Theorem waits_little a f : In f (waits (fst (start_network a))) -> f = 20 * 60.
Proof.
  unfold waits. intros H. apply in_flat_map in H as (e & He & H). destruct e; cbn in H; try contradiction. destruct H as [<-|[]].
  assert (K : forall l, In (SAssocWait frames) l -> (forall e, In e l -> match e with SAssocWait f => f = 1200 | _ => True end) -> frames = 1200) by (intros l I A; exact (A _ I)).
  apply (K _ He). clear. intros e. unfold start_network, init_mega_wifi, detect_mw, listen_on_udp_port, associate_ap.
  destruct (an_uart a); [|cbn; intuition (subst; exact Logic.I)].
  repeat match goal with |- context [negb (?x =? ?y)] => destruct (x =? y) end; cbn; intros H; repeat destruct H as [<-|H]; try exact Logic.I; try reflexivity; contradiction.
Qed.

(** Not listening. *)
Lemma deaf_run ops : Forall nop_ok ops -> forall s s' tr, n_recv_data s = false -> guarded_run false ops s = NDone tt s' tr ->
  n_recv_data s' = false /\ handed_over tr = [] /\ in_flight tr = None.
Proof.
  induction 1 as [|op ops Ho _ IH]; intros s s' tr R E.
  - injection E as <- <-. auto.
  - cbn [guarded_run] in E. apply nthen_inv in E as (s1 & o1 & o2 & E1 & E2 & ->).
    assert (K : n_recv_data s1 = false /\ handed_over o1 = [] /\ in_flight o1 = None).
    { destruct op as [cbs x y|d|d|]; cbn [guarded_step net_step] in E1.
      - injection E1 as <- <-. auto.
      - unfold net_write in E1. rewrite get_eq in E1. destruct (pack_rtp_midi_packet _ _ _ _) as [[p q]|]; [|injection E1 as <- <-; auto].
        apply nthen_inv in E1 as (s2 & o3 & o4 & E3 & E4 & ->). injection E3 as <- <-. unfold net_send in E4. rewrite get_eq in E4.
        destruct (n_tx _); [|injection E4 as <- <-; auto..]. destruct (_ <? _); [|]; unfold nthen, nbind, nmod, nlog, nret in E4; injection E4 as <- <-; auto.
      - injection E1 as <- <-. auto.
      - unfold nbind, net_read in E1. destruct (ring_buf_read (n_ring s)) as [[[] [d|]] r o|f]; try discriminate; injection E1 as <- <-; auto. }
    destruct K as (K1 & K2 & K3). destruct (IH s1 s' o2 K1 E2) as (L1 & L2 & L3). split; [exact L1|]. split.
    + unfold handed_over in *. rewrite flat_map_app, K2, L2. reflexivity.
    + unfold in_flight in *. rewrite fold_left_app, K3. exact L3.
Qed.
Theorem deaf ops s tr : Forall nop_ok ops -> guarded_run false ops net_boot = NDone tt s tr -> net_read_ready s = false /\ handed_over tr = [].
Proof.
  intros H E. destruct (deaf_run ops H net_boot s tr eq_refl E) as (A & B & _). unfold net_read_ready. rewrite A. auto.
Qed.
Lemma guarded_listening ops s : guarded_run true ops s = net_run ops s.
Proof.
  revert s. induction ops as [|op ops IH]; intros s; [reflexivity|]. cbn [guarded_run net_run]. unfold nthen, nbind.
  assert (K : guarded_step true op s = net_step op s) by (destruct op; reflexivity). rewrite K. destruct (net_step op s) as [[] s1 o1|]; [|reflexivity]. rewrite IH. reflexivity.
Qed.

(** Joining failed, nobody is told. *)
Definition not_joined : answers := mkAnswers true 0 0 (1, 5) 0 0 (-1) 0 0 (fun _ => 0).
Lemma unjoined_listens : ~ joined not_joined /\ usable not_joined /\ (forall e, In e (fst (start_network not_joined)) -> ~ warning e) /\
  In (LListening [48; 46; 48; 46; 48; 46; 48] 5006) (fst (start_network not_joined)).
Proof.
  split; [intros [_ [=]]|]. split; [repeat split|]. split; [|vm_compute; tauto]. intros e H. cbn in H. repeat destruct H as [<-|H]; try (intros []); contradiction.
Qed.
Lemma absent_quiet a : an_uart a = false -> start_network a = ([SYield], false).
Proof. intros H. unfold start_network. rewrite H. reflexivity. Qed.
Lemma start_example : let a := mkAnswers true 0 0 (1, 5) (-1) 0 0 0 0xC0A80102 (fun _ => 0) in
  usable a /\ joined a /\ In (SAssoc 0) (fst (start_network a)) /\ In (LListening [49; 57; 50; 46; 49; 54; 56; 46; 49; 46; 50] 5006) (fst (start_network a)).
Proof. cbv zeta. split; [repeat split|]. split; [repeat split|]. split; vm_compute; tauto. Qed.
Lemma failed_example : let a := mkAnswers true 0 (-3) (0, 0) 0 0 0 0 0 (fun _ => 0) in an_uart a = true /\ snd (start_network a) = false /\ In LNotFound (fst (start_network a)).
Proof. cbv zeta. split; [reflexivity|]. split; vm_compute; tauto. Qed.
Lemma deaf_example : exists s tr, Forall nop_ok [NWrite [0x90; 60; 100]; NTick [CbSent] true true; NVsync 1] /\
  guarded_run false [NWrite [0x90; 60; 100]; NTick [CbSent] true true; NVsync 1] net_boot = NDone tt s tr /\ exists c d, In (NQueued c d) tr.
Proof.
  eexists _, _. split; [repeat (apply Forall_cons; [cbn; unfold RtpSpec.byte; repeat first [apply Forall_nil|apply Forall_cons|split|lia]|]); apply Forall_nil|].
  split; [vm_compute; reflexivity|]. eexists _, _. left. reflexivity.
Qed.

(** ** memcmp *)
Theorem memcmp_total n : forall x y, (n <= length x)%nat -> (n <= length y)%nat -> exists v, memcmp x y n = Some v /\
  (v = 0 <-> firstn n x = firstn n y) /\ (v < 0 <-> lex_less (firstn n x) (firstn n y)) /\ (0 < v <-> lex_less (firstn n y) (firstn n x)).
Proof.
  assert (N : forall l, ~ lex_less l []) by (intros l (p & a & b & x' & y' & _ & E & _); destruct p; discriminate).
  induction n as [|n IH]; intros x y Hx Hy.
  - exists 0. cbn. split; [reflexivity|]. split; [tauto|]. split; split; intros H; try lia; contradiction (N _ H).
  - destruct x as [|a x]; [cbn in Hx; lia|]. destruct y as [|b y]; [cbn in Hy; lia|]. cbn [length] in *. cbn [memcmp firstn].
    assert (L : forall u v p q, lex_less (u :: p) (v :: q) <-> u < v \/ (u = v /\ lex_less p q)).
    { intros u v p q. split.
      - intros (s & a' & b' & x' & y' & E1 & E2 & C). destruct s as [|h s]; cbn in E1, E2; injection E1 as -> ->; injection E2 as -> ->; [left; exact C|right]. split; [reflexivity|]. exists s, a', b', x', y'. auto.
      - intros [C|[-> (s & a' & b' & x' & y' & -> & -> & C)]]; [exists [], u, v, p, q; auto|exists (v :: s), a', b', x', y'; auto]. }
    destruct (Z.eqb_spec a b) as [->|Ne]; cbn [negb].
    + destruct (IH x y ltac:(lia) ltac:(lia)) as (v & E & A & B & C). exists v. rewrite !L. split; [exact E|]. split; [rewrite A; split; congruence|]. split; [rewrite B|rewrite C]; intuition lia.
    + exists (if a <? b then -1 else 1). rewrite !L. split; [reflexivity|]. destruct (Z.ltb_spec a b); (split; [split; [lia|intros Q; congruence]|]); split; intuition lia.
Qed.
Lemma memcmp_prefix p data : (length p <= length data)%nat -> memcmp data p (length p) = Some 0 <-> has_prefix p data = true.
Proof.
  revert data. induction p as [|x p IH]; intros [|y data] L; cbn [length] in *; try (cbn; tauto); try lia. cbn [memcmp has_prefix].
  destruct (Z.eqb_spec y x) as [->|N]; cbn [negb andb]; [apply IH; lia|]. split; [destruct (y <? x); discriminate|discriminate].
Qed.
