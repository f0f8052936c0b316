(** The interface on the network. *)
From Verif Require Import Base BaseLemmas SynthModel SynthSpec MidiModel MidiSpec MidiProofs MidiOkProofs MidiEqProofs MidiEffectProofs MidiCallProofs RingBufModel RingBufSpec RingBufProofs.
From Verif Require Import PsgModel DevModel DevSpec DevProofs AppModel AppSpec AppProofs AppTraceProofs RxModel RxSpec RxProofs MachineSpec MachineProofs NetModel NetSpec NetProofs NetReplyProofs WifiModel WifiSpec ReplyProofs WifiNetProofs.
From Verif Require RtpSpec.
Local Notation sent := DevSpec.sent.

Lemma outgoing_sent o : outgoing o = sent o.
Proof. reflexivity. Qed.

(** ** Nothing is sent at power-on *)
Definition tx_callb (c : dcall) : bool := match c with DTx _ | DDumpPreset _ | DDumpChan _ _ => true | _ => false end.
Lemma boot_silent_calls : forallb (fun c => negb (tx_callb c)) (skipn 4 boot_calls) = true.
Proof. vm_compute. reflexivity. Qed.
Lemma boot_silent r hw mem a o : rom_ok r -> mem_ok mem -> app_boot r hw mem [] = Done tt a o -> sent o = [].
Proof.
  intros Hr Hm E. destruct (app_main_ok r hw mem Hr Hm) as (s & o1 & E1 & P & _ & _).
  rewrite (boot_nothing _ _ _ _ _ E1) in E. injection E as <- <-.
  assert (X : Forall (fun c => tx_callb c = false) (skipn 4 boot_calls) -> sent o1 = []).
  2:{ apply X. apply Forall_forall. intros c Hc. assert (B := proj1 (forallb_forall _ _) boot_silent_calls c Hc). cbn beta in B. destruct (tx_callb c); [discriminate|reflexivity]. }
  revert P. assert (B := boot_calls_ok). revert B. generalize boot_calls (a_dev s) o1. intros cs d tr B P.
  apply (played_rec r Hr mem Hm (fun cs s tr => Forall (fun c => tx_callb c = false) cs -> sent tr = [])) with (s := d); [| | | |exact P|exact B].
  - intros s0 o0 _ _ _ _ _ O _ _ _ _. rewrite sent_other, O. reflexivity.
  - intros cs0 s0 tr0 c s1 o0 _ _ J _ _ _ _ _ O _ N. apply Forall_app in N as [N1 N2]. rewrite sent_app, (J N1), sent_other, O. cbn [Datatypes.app].
    apply silent_call. intros T. apply Forall_inv in N2. destruct c; contradiction || discriminate.
  - intros cs0 s0 tr0 x o0 _ _ J _ O N. rewrite sent_app, (J N), sent_other, O. reflexivity.
  - intros cs0 s0 tr0 x o0 _ _ J _ O N. rewrite sent_app, (J N), sent_other, O. reflexivity.
Qed.

(** ** Runs of the network layer *)
Lemma net_run_app a : forall b s s1 o1 s2 o2, net_run a s = NDone tt s1 o1 -> net_run b s1 = NDone tt s2 o2 -> net_run (a ++ b) s = NDone tt s2 (o1 ++ o2).
Proof.
  induction a as [|x a IH]; intros b s s1 o1 s2 o2 E1 E2; [injection E1 as <- <-; exact E2|].
  cbn [net_run Datatypes.app] in *. apply nthen_inv in E1 as (s3 & o3 & o4 & E3 & E4 & ->). rewrite <- app_assoc. exact (then_done E3 (IH _ _ _ _ _ _ E4 E2)).
Qed.
Lemma net_run_one op s s' o : net_step op s = NDone tt s' o -> net_run [op] s = NDone tt s' o.
Proof. intros E. rewrite <- (app_nil_r o). exact (then_done (k := nret tt) E eq_refl). Qed.
Lemma written_app a b : written (a ++ b) = written a ++ written b.
Proof. apply flat_map_app. Qed.

(** [nops] takes the network layer from [n] to [n'], writing [d] in replies to [ops]. *)
Definition goes (n : net) (nops : list nop) (n' : net) (radio : list nev) (d : list Z) (ops : list aop) (evs : list wevent) : Prop :=
  Forall nop_ok nops /\ net_run nops n = NDone tt n' radio /\ concat (written nops) = d /\
  Forall (fun w => w <> [] /\ exists m, In (AMsg m) ops /\ reply_ok m w) (written nops) /\ polled nops = evs.
Lemma goes_nil n ops : goes n [] n [] [] ops [].
Proof. repeat split; constructor. Qed.
Lemma goes_app n a n1 r1 d1 p1 e1 b n2 r2 d2 p2 e2 : goes n a n1 r1 d1 p1 e1 -> goes n1 b n2 r2 d2 p2 e2 -> goes n (a ++ b) n2 (r1 ++ r2) (d1 ++ d2) (p1 ++ p2) (e1 ++ e2).
Proof.
  intros (A1 & A2 & A3 & A4 & A5) (B1 & B2 & B3 & B4 & B5). split; [apply Forall_app; auto|]. split; [exact (net_run_app _ _ _ _ _ _ _ A2 B2)|].
  rewrite written_app, concat_app, A3, B3. split; [reflexivity|]. split; [|unfold polled; rewrite flat_map_app; fold (polled a) (polled b); congruence].
  apply Forall_app. split; [eapply Forall_impl; [|exact A4]|eapply Forall_impl; [|exact B4]]; intros w (W & m & M & R); (split; [exact W|]); exists m; (split; [apply in_or_app; auto|exact R]).
Qed.
Lemma goes_wf n nops n' radio d p e : nwf n -> goes n nops n' radio d p e -> nwf n'.
Proof. intros W (H & E & _). exact (reach_wf _ _ _ W (moves_run nops H _ _ _ W E)). Qed.

Lemma reply_bytes m d : reply_ok m d -> Forall RtpSpec.byte d /\ Z.of_nat (length d) < 65536.
Proof.
  intros [->|(cmd & body & -> & B & L & C)]; [split; [constructor|reflexivity]|]. unfold RtpSpec.byte. split.
  - assert (X : 0 <= cmd < 256) by (destruct C as [[_ ->]|[[_ ->]|[_ ->]]]; lia).
    repeat (apply Forall_cons; [lia|]). apply Forall_app. split; [|repeat constructor; lia]. eapply Forall_impl; [|exact B]. intros q Q; red in Q; cbn beta; lia.
  - rewrite !app_length. cbn [length]. lia.
Qed.

(** ** One message, one frame *)
Section Wifi.
Context (r : rom) (hw : hardware) (mem : list Z).

Lemma perform_sim op s ops tr : history r hw mem ops (w_app s) tr -> aop_ok op -> nwf (w_net s) ->
  match app_step r op (w_app s) with
  | Fault f => w_perform r op s = WfFault f
  | Done _ a o => exists n radio nops, w_perform r op s = WfDone (mkWifi a n (w_rx s)) o radio /\
      goes (w_net s) nops n radio (sent o) [op] [] /\ same_air (w_net s) n
  end.
Proof.
  intros H Ho W. unfold w_perform. destruct (app_step r op (w_app s)) as [[] a o|f] eqn:E; [|reflexivity].
  assert (R := step_replies r hw mem ops op _ _ _ _ H Ho E).
  assert (B : Forall RtpSpec.byte (sent o) /\ Z.of_nat (length (sent o)) < 65536).
  { destruct op as [m|]; [exact (reply_bytes m _ R)|rewrite R; split; [constructor|reflexivity]]. }
  unfold wf_bind, on_net, send_back. cbn [w_net w_app w_rx]. rewrite outgoing_sent. destruct (sent o) as [|x d] eqn:S.
  - cbn. rewrite app_nil_r. exists (w_net s), [], []. split; [reflexivity|]. split; [apply goes_nil|apply same_air_refl].
  - destruct (write_same (x :: d) (w_net s)) as (n & radio & En & Sn). rewrite En, app_nil_r.
    exists n, radio, [NWrite (x :: d)]. split; [reflexivity|]. split; [|exact Sn]. split; [constructor; [exact B|constructor]|].
    split; [exact (net_run_one (NWrite (x :: d)) _ _ _ En)|]. split; [cbn; rewrite app_nil_r; reflexivity|]. split; [|reflexivity].
    destruct op as [m|]; [|discriminate R]. constructor; [|constructor]. split; [discriminate|]. exists m. split; [left; reflexivity|exact R].
Qed.

Lemma performs_sim ms : forall s ops tr, history r hw mem ops (w_app s) tr -> Forall mop_ok ms -> nwf (w_net s) ->
  match app_run r (map AMsg ms) (w_app s) with
  | Fault f => w_performs r (map AMsg ms) s = WfFault f
  | Done _ a o => exists n radio nops, w_performs r (map AMsg ms) s = WfDone (mkWifi a n (w_rx s)) o radio /\
      goes (w_net s) nops n radio (sent o) (map AMsg ms) [] /\ same_air (w_net s) n
  end.
Proof.
  induction ms as [|m ms IH]; intros s ops tr H Hm W.
  - cbn. exists (w_net s), [], []. destruct s. split; [reflexivity|]. split; [apply goes_nil|apply same_air_refl].
  - inversion Hm as [|? ? Hm1 Hm2]; subst. assert (P := perform_sim (AMsg m) s ops tr H Hm1 W).
    cbn [map w_performs]. unfold app_run in *. cbn [runM]. unfold bind at 1. destruct (app_step r (AMsg m) (w_app s)) as [[] a o|f] eqn:E; [|rewrite P; reflexivity].
    destruct P as (n & radio & nops & P & G & A). rewrite P.
    assert (H1 := history_snoc _ _ _ _ (AMsg m) _ _ _ _ H Hm1 E).
    specialize (IH (mkWifi a n (w_rx s)) _ _ H1 Hm2 (goes_wf _ _ _ _ _ _ _ W G)). cbn [w_app w_net w_rx] in IH. cbn [wf_bind].
    destruct (runM (app_step r) (map AMsg ms) a) as [[] a2 o2|f]; [|rewrite IH; reflexivity].
    destruct IH as (n2 & radio2 & nops2 & -> & G2 & A2). exists n2, (radio ++ radio2), (nops ++ nops2). split; [reflexivity|]. rewrite sent_app.
    split; [exact (goes_app _ _ _ _ _ _ _ _ _ _ _ _ _ G G2)|exact (same_air_trans _ _ _ A A2)].
Qed.

(** ** Reading everything that waits *)
Lemma drain_sim q : forall fuel s ops tr ms, (length q <= fuel)%nat -> history r hw mem ops (w_app s) tr -> air (w_net s) q ->
  rx_run (reset_action STARTUP_MIDI_SEQUENCE) (w_rx s) q = Ran ms None -> Forall mop_ok ms ->
  match app_run r (map AMsg ms) (w_app s) with
  | Fault f => w_drain r fuel s = WfFault f
  | Done _ a o => exists n radio nops, w_drain r fuel s = WfDone (mkWifi a n None) o radio /\
      goes (w_net s) nops n radio (sent o) (map AMsg ms) [] /\ air n [] /\ n_rx n = n_rx (w_net s)
  end.
Proof.
  induction q as [|b q IH]; intros fuel s ops tr ms L H A E Hm.
  - cbn [rx_run] in E. injection E as <- E. assert (X := air_ready _ _ A). cbn in X. cbn [map]. unfold app_run. cbn [runM]. unfold ret.
    exists (w_net s), [], []. split; [destruct fuel; cbn [w_drain]; rewrite X; destruct s; cbn in *; rewrite E; reflexivity|]. split; [apply goes_nil|]. split; [exact A|reflexivity].
  - cbn [length] in L. destruct fuel as [|fuel]; [lia|]. cbn [rx_run] in E. destruct (rx_byte _ (w_rx s) b) as [o1 st1|] eqn:E1; [|discriminate].
    destruct (rx_run _ st1 q) as [o2 st2|] eqn:E2; [|discriminate]. injection E as <- ->. apply Forall_app in Hm as [Hm1 Hm2].
    assert (X := air_ready _ _ A). cbn in X. destruct (air_read _ _ _ A) as (n1 & Er & A1 & X1).
    cbn [w_drain]. rewrite X, Er, E1. cbn [wf_bind Datatypes.app].
    assert (G0 : goes (w_net s) [NRead] n1 [] [] [] []).
    { split; [constructor; [exact Logic.I|constructor]|]. split; [apply net_run_one; cbn [net_step]; unfold nbind; rewrite Er; reflexivity|]. repeat split. constructor. }
    assert (P := performs_sim o1 (mkWifi (w_app s) n1 st1) ops tr H Hm1 (proj1 A1)). cbn [w_app w_net w_rx] in P.
    rewrite map_app. unfold app_run in *. rewrite runM_app. unfold bind at 1.
    destruct (runM (app_step r) (map AMsg o1) (w_app s)) as [[] a1 oa|f] eqn:Ea; [|rewrite P; reflexivity].
    destruct P as (n2 & radio2 & nops2 & -> & G2 & S2). cbn [wf_bind Datatypes.app].
    assert (H1 := messages_run_on r hw mem o1 Hm1 _ _ _ _ _ H Ea). assert (A2 := air_same _ _ _ A1 (goes_wf _ _ _ _ _ _ _ (proj1 A1) G2) S2).
    specialize (IH fuel (mkWifi a1 n2 st1) _ _ o2 ltac:(lia) H1 A2 E2 Hm2). cbn [w_app w_net w_rx] in IH.
    destruct (runM (app_step r) (map AMsg o2) a1) as [[] a3 o3|f]; [|rewrite IH; reflexivity].
    destruct IH as (n3 & radio3 & nops3 & -> & G3 & A3 & X3). exists n3, (radio2 ++ radio3), ([NRead] ++ nops2 ++ nops3). split; [reflexivity|].
    rewrite sent_app. split; [exact (goes_app _ _ _ _ _ _ _ _ _ _ _ _ _ G0 (goes_app _ _ _ _ _ _ _ _ _ _ _ _ _ G2 G3))|]. split; [exact A3|].
    destruct S2 as (_ & _ & S2). congruence.
Qed.

(** ** A poll, a frame *)
Lemma tick_sim cbs x y l b b' s ops tr : history r hw mem ops (w_app s) tr -> w_rx s = None -> air (w_net s) [] -> n_rx (w_net s) = rx_of b ->
  Forall callback_ok cbs -> asks1 b cbs y l b' -> Forall msg_ok l -> (length (RxSpec.stream l) <= 1460)%nat ->
  match app_run r (told l) (w_app s) with
  | Fault f => w_step r (WTick cbs x y) s = WfFault f
  | Done _ a o => exists n radio nops, w_step r (WTick cbs x y) s = WfDone (mkWifi a n None) o radio /\
      goes (w_net s) nops n radio (sent o) (told l) [WTick cbs x y] /\ air n [] /\ n_rx n = rx_of b'
  end.
Proof.
  intros H Hx A Hn Hc Ha Hl L. unfold w_step, waiting. rewrite Hx.
  destruct (tick_air (w_net s) b cbs x y l b' A Hn Hc Ha) as (n1 & o1 & E1 & A1 & X1). unfold on_net. rewrite E1, Hx. cbn [wf_bind].
  assert (G1 : goes (w_net s) [NTick cbs x y] n1 o1 [] [] [WTick cbs x y]).
  { split; [constructor; [exact Hc|constructor]|]. split; [exact (net_run_one (NTick cbs x y) _ _ _ E1)|]. repeat split. constructor. }
  assert (S : receive [] None (RxSpec.stream l) = Ran (meanings [] l) None) by exact (c03 [] l (conj (Forall_nil _) (Forall_nil _)) Hl).
  assert (P := drain_sim (RxSpec.stream l) (Z.to_nat MW_RX_TX_BUFFER_SIZE) (mkWifi (w_app s) n1 None) ops tr (meanings [] l)).
  cbn [w_app w_net w_rx] in P. specialize (P ltac:(unfold MW_RX_TX_BUFFER_SIZE; lia) H A1 S (meanings_ok l Hl)). unfold told.
  destruct (app_run r (map AMsg (meanings [] l)) (w_app s)) as [[] a o|f]; [|rewrite P; reflexivity].
  destruct P as (n2 & radio2 & nops2 & -> & G2 & A2 & X2). cbn [Datatypes.app]. exists n2, (o1 ++ radio2), ([NTick cbs x y] ++ nops2). split; [reflexivity|].
  split; [exact (goes_app _ _ _ _ _ _ _ _ _ _ _ _ _ G1 G2)|]. split; [exact A2|congruence].
Qed.
Lemma frame_sim d s ops tr : history r hw mem ops (w_app s) tr -> w_rx s = None -> air (w_net s) [] -> 0 <= d < 65536 ->
  match app_step r AFrame (w_app s) with
  | Fault f => w_step r (WFrame d) s = WfFault f
  | Done _ a o => exists n radio nops, w_step r (WFrame d) s = WfDone (mkWifi a n None) o radio /\
      goes (w_net s) nops n radio (sent o) [AFrame] [WFrame d] /\ air n [] /\ n_rx n = n_rx (w_net s)
  end.
Proof.
  intros H Hx A Hd. unfold w_step, waiting. rewrite Hx. assert (P := perform_sim AFrame s ops tr H Logic.I (proj1 A)).
  destruct (app_step r AFrame (w_app s)) as [[] a o|f]; [|rewrite P; reflexivity].
  destruct P as (n & radio & nops & -> & G & S). cbn [wf_bind]. destruct (frames_same d n) as (n2 & o2 & E2 & S2). unfold on_net. cbn [w_net w_app w_rx]. rewrite E2, app_nil_r, Hx.
  assert (G2 : goes n [NVsync d] n2 o2 [] [] [WFrame d]).
  { split; [constructor; [exact Hd|constructor]|]. split; [exact (net_run_one (NVsync d) _ _ _ E2)|]. repeat split. constructor. }
  exists n2, (radio ++ o2), (nops ++ [NVsync d]). split; [reflexivity|]. assert (G3 := goes_app _ _ _ _ _ _ _ _ _ _ _ _ _ G G2). rewrite app_nil_r in G3.
  split; [exact G3|]. split; [exact (air_same _ _ _ A (goes_wf _ _ _ _ _ _ _ (proj1 A) G3) (same_air_trans _ _ _ S S2))|].
  destruct S as (_ & _ & S). destruct S2 as (_ & _ & S2). congruence.
Qed.

(** ** A run *)
Lemma brings_msgs ch d l : brings ch d l -> Forall msg_ok l /\ (length (RxSpec.stream l) <= 1460)%nat.
Proof.
  intros [? ? _|? _|hdr sec journal l' P Hh _ Hm E]; [split; [constructor|cbn; lia]..|]. split; [exact Hm|]. rewrite E.
  assert (Hs : RtpSpec.section_ok sec) by apply P. assert (H255 : RtpSpec.list_length sec <= 255) by apply Hh. assert (SL := stream_length sec Hs). lia.
Qed.
Lemma told_run_ok l : Forall msg_ok l -> Forall aop_ok (told l).
Proof. intros H. unfold told. apply Forall_map. exact (meanings_ok l H). Qed.

Lemma wifi_run_sim b evs ops : asks b evs ops -> forall s ops0 tr, Forall wev_ok evs -> history r hw mem ops0 (w_app s) tr -> w_rx s = None -> air (w_net s) [] -> n_rx (w_net s) = rx_of b ->
  match app_run r ops (w_app s) with
  | Fault f => w_run r evs s = WfFault f
  | Done _ a o => exists n radio nops, w_run r evs s = WfDone (mkWifi a n None) o radio /\ goes (w_net s) nops n radio (sent o) ops evs /\ air n []
  end.
Proof.
  assert (Tick : forall cbs x y l b b' evs ops, asks1 b cbs y l b' -> Forall msg_ok l -> (length (RxSpec.stream l) <= 1460)%nat ->
    (forall s ops0 tr, Forall wev_ok evs -> history r hw mem ops0 (w_app s) tr -> w_rx s = None -> air (w_net s) [] -> n_rx (w_net s) = rx_of b' ->
      match app_run r ops (w_app s) with
      | Fault f => w_run r evs s = WfFault f
      | Done _ a o => exists n radio nops, w_run r evs s = WfDone (mkWifi a n None) o radio /\ goes (w_net s) nops n radio (sent o) ops evs /\ air n []
      end) ->
    forall s ops0 tr, Forall wev_ok (WTick cbs x y :: evs) -> history r hw mem ops0 (w_app s) tr -> w_rx s = None -> air (w_net s) [] -> n_rx (w_net s) = rx_of b ->
      match app_run r (told l ++ ops) (w_app s) with
      | Fault f => w_run r (WTick cbs x y :: evs) s = WfFault f
      | Done _ a o => exists n radio nops, w_run r (WTick cbs x y :: evs) s = WfDone (mkWifi a n None) o radio /\ goes (w_net s) nops n radio (sent o) (told l ++ ops) (WTick cbs x y :: evs) /\ air n []
      end).
  { clear. intros cbs x y l b b' evs ops Ha Hl L IH s ops0 tr He H Hx A Hn. cbn [w_run].
    assert (P := tick_sim cbs x y l b b' s ops0 tr H Hx A Hn (Forall_inv He) Ha Hl L).
    unfold app_run in *. rewrite runM_app. unfold bind at 1. destruct (runM (app_step r) (told l) (w_app s)) as [[] a o|f] eqn:E; [|rewrite P; reflexivity].
    destruct P as (n & radio & nops & -> & G & A1 & X1). cbn [wf_bind].
    assert (H1 : history r hw mem (ops0 ++ told l) a (tr ++ o)) by exact (messages_run_on r hw mem _ (meanings_ok l Hl) _ _ _ _ _ H E).
    specialize (IH (mkWifi a n None) _ _ (Forall_inv_tail He) H1 eq_refl A1 X1). cbn [w_app w_net w_rx] in IH.
    destruct (runM (app_step r) ops a) as [[] a2 o2|f]; [|rewrite IH; reflexivity].
    destruct IH as (n2 & radio2 & nops2 & -> & G2 & A2). exists n2, (radio ++ radio2), (nops ++ nops2). split; [reflexivity|]. rewrite sent_app.
    split; [exact (goes_app _ _ _ _ _ _ _ _ _ _ _ _ _ G G2)|exact A2]. }
  induction 1 as [b|b d evs ops Hs IH|cbs x y evs ops Hs IH|cbs x y evs ops F Hs IH|cbs x y evs ops F Hs IH|cbs x y ch raw l evs ops F B Hs IH]; intros s ops0 tr He H Hx A Hn.
  - cbn. exists (w_net s), [], []. split; [destruct s; cbn in *; rewrite Hx; reflexivity|]. split; [apply goes_nil|exact A].
  - assert (P := frame_sim d s ops0 tr H Hx A (Forall_inv He)). cbn [w_run]. unfold app_run in *. cbn [runM]. unfold bind at 1.
    destruct (app_step r AFrame (w_app s)) as [[] a o|f] eqn:E; [|rewrite P; reflexivity].
    destruct P as (n & radio & nops & -> & G & A1 & X1). cbn [wf_bind].
    assert (H1 := history_snoc _ _ _ _ AFrame _ _ _ _ H Logic.I E).
    specialize (IH (mkWifi a n None) _ _ (Forall_inv_tail He) H1 eq_refl A1 (eq_trans X1 Hn)). cbn [w_app w_net w_rx] in IH.
    destruct (runM (app_step r) ops a) as [[] a2 o2|f]; [|rewrite IH; reflexivity].
    destruct IH as (n2 & radio2 & nops2 & -> & G2 & A2). exists n2, (radio ++ radio2), (nops ++ nops2). split; [reflexivity|]. rewrite sent_app.
    split; [exact (goes_app _ _ _ _ _ _ _ _ _ _ _ _ _ G G2)|exact A2].
  - exact (Tick cbs x y [] false y evs ops (a1_deaf _ _ _ eq_refl) (Forall_nil _) ltac:(cbn; lia) IH s ops0 tr He H Hx A Hn).
  - exact (Tick cbs x y [] true true evs ops (a1_quiet _ _ _ eq_refl F) (Forall_nil _) ltac:(cbn; lia) IH s ops0 tr He H Hx A Hn).
  - exact (Tick cbs x y [] true y evs ops (a1_error _ _ _ eq_refl F) (Forall_nil _) ltac:(cbn; lia) IH s ops0 tr He H Hx A Hn).
  - destruct (brings_msgs _ _ _ B) as [Hl L]. exact (Tick cbs x y l true y evs ops (a1_got _ _ _ _ _ _ eq_refl F B) Hl L IH s ops0 tr He H Hx A Hn).
Qed.
End Wifi.

Lemma asks_ok b evs ops : asks b evs ops -> Forall aop_ok ops.
Proof.
  induction 1 as [b|b d evs ops Hs IH|cbs x y evs ops Hs IH|cbs x y evs ops F Hs IH|cbs x y evs ops F Hs IH|cbs x y ch raw l evs ops F B Hs IH]; auto.
  - constructor; [exact Logic.I|exact IH].
  - apply Forall_app. split; [exact (told_run_ok l (proj1 (brings_msgs _ _ _ B)))|exact IH].
Qed.
Lemma boot_then r hw mem a oa ops : app_boot r hw mem [] = Done tt a oa ->
  app_boot r hw mem ops = match app_run r ops a with Fault f => Fault f | Done x a' o => Done x a' (oa ++ o) end.
Proof.
  unfold app_boot, bind. destruct (app_main r hw STARTUP_MIDI_SEQUENCE (app0 mem)) as [[] s o|f]; [|discriminate].
  unfold app_run at 1. cbn [runM]. unfold ret. rewrite app_nil_r. intros [= -> ->]. destruct (app_run r ops a); reflexivity.
Qed.

(** ** C103, C104 *)
Theorem on_air_does r hw mem evs ops s out radio : on_air r hw mem evs s out radio -> asks false evs ops ->
  history r hw mem ops (w_app s) out /\ waiting s = false /\
  exists nops, nhistory nops (w_net s) radio /\ polled nops = evs /\ concat (written nops) = sent out /\
    Forall (fun w => w <> [] /\ exists m, In (AMsg m) ops /\ reply_ok m w) (written nops).
Proof.
  intros (Hr & Hm & He & a & oa & ob & Eb & Ew & ->) Ha.
  assert (H0 : history r hw mem [] a oa) by (split; [exact Hr|split; [exact Hm|split; [constructor|exact Eb]]]).
  assert (P := wifi_run_sim r hw mem false evs ops Ha (wifi_start a) [] oa He H0 eq_refl air_boot eq_refl). cbn [wifi_start w_app w_net w_rx] in P.
  assert (X := boot_then r hw mem a oa ops Eb).
  destruct (app_run r ops a) as [[] a' o|f]; [|rewrite P in Ew; discriminate].
  destruct P as (n & radio' & nops & P & G & _). fold (wifi_start a) in P. rewrite Ew in P. injection P as -> -> ->. cbn [w_app w_net].
  split; [split; [exact Hr|split; [exact Hm|split; [exact (asks_ok _ _ _ Ha)|exact X]]]|]. split; [reflexivity|].
  destruct G as (G1 & G2 & G3 & G4 & G5). exists nops. split; [split; assumption|]. rewrite sent_app, (boot_silent _ _ _ _ _ Hr Hm Eb). auto.
Qed.
Theorem on_air_can r hw mem evs ops a out : history r hw mem ops a out -> Forall wev_ok evs -> asks false evs ops ->
  exists s radio, on_air r hw mem evs s out radio /\ w_app s = a.
Proof.
  intros (Hr & Hm & _ & E) He Ha.
  destruct (app_main_ok r hw mem Hr Hm) as (a0 & oa & E0 & _). apply boot_nothing in E0.
  assert (H0 : history r hw mem [] a0 oa) by (split; [exact Hr|split; [exact Hm|split; [constructor|exact E0]]]).
  assert (P := wifi_run_sim r hw mem false evs ops Ha (wifi_start a0) [] oa He H0 eq_refl air_boot eq_refl). cbn [wifi_start w_app w_net w_rx] in P.
  rewrite (boot_then r hw mem a0 oa ops E0) in E. destruct (app_run r ops a0) as [[] a' o|f]; [|discriminate]. injection E as <- <-.
  destruct P as (n & radio & nops & P & _). exists (mkWifi a' n None), radio. split; [|reflexivity].
  split; [exact Hr|]. split; [exact Hm|]. split; [exact He|]. exists a0, oa, o. auto.
Qed.

(** ** A reader left inside a message never comes back *)
Lemma stuck r evs : forall s, waiting s = true -> w_run r evs s = WfDone s [] [].
Proof. induction evs as [|e evs IH]; intros s H; [reflexivity|]. cbn [w_run]. unfold w_step. rewrite H. cbn [wf_bind]. rewrite IH by exact H. reflexivity. Qed.
Lemma w_run_app r a : forall b s, w_run r (a ++ b) s = wf_bind (w_run r a s) (w_run r b).
Proof.
  induction a as [|e a IH]; intros b s; cbn [w_run Datatypes.app].
  - cbn [wf_bind]. destruct (w_run r b s); reflexivity.
  - destruct (w_step r e s) as [s1 o1 r1|f]; [|reflexivity]. cbn [wf_bind]. rewrite IH. destruct (w_run r a s1) as [s2 o2 r2|f]; [|reflexivity]. cbn [wf_bind].
    destruct (w_run r b s2) as [s3 o3 r3|f]; [|reflexivity]. rewrite <- !app_assoc. reflexivity.
Qed.
Theorem air_stuck r hw mem evs later s out radio : on_air r hw mem evs s out radio -> waiting s = true -> Forall wev_ok later ->
  on_air r hw mem (evs ++ later) s out radio.
Proof.
  intros (Hr & Hm & He & a & oa & ob & Eb & Ew & ->) Hw Hl. split; [exact Hr|]. split; [exact Hm|]. split; [apply Forall_app; auto|].
  exists a, oa, ob. split; [exact Eb|]. split; [|reflexivity]. rewrite w_run_app, Ew. cbn [wf_bind]. rewrite (stuck r later s Hw), !app_nil_r. reflexivity.
Qed.

(** ** Every well-formed command list is a list of messages *)
Lemma two_of {A} (l : list A) : length l = 2%nat -> exists a b, l = [a; b].
Proof. destruct l as [|a [|b [|c l]]]; try discriminate. eauto. Qed.
Lemma one_of {A} (l : list A) : length l = 1%nat -> exists a, l = [a].
Proof. destruct l as [|a [|b l]]; try discriminate. eauto. Qed.
Lemma command_message c : RtpSpec.command_ok c -> (length (RtpSpec.midi_bytes c) <= 256)%nat -> exists m, msg_ok m /\ encode m = RtpSpec.midi_bytes c.
Proof.
  destruct c as [st ds|ds]; cbn [RtpSpec.command_ok RtpSpec.midi_bytes].
  2:{ intros D L. exists (SysEx ds). split; [|reflexivity]. split; [exact D|]. cbn [length] in L. rewrite app_length in L. cbn [length] in L. lia. }
  intros (S & N & D) _. unfold RtpSpec.data_count in N. unfold RtpSpec.status_ok in S.
  assert (V : forall a b, data_ok a -> data_ok b -> 0 <= b * 128 + a < 16384 /\ (b * 128 + a) mod 128 = a /\ (b * 128 + a) / 128 = b).
  { unfold data_ok. intros a b Ha Hb. split; [lia|]. split; [rewrite Z.add_comm, Z.mod_add by lia; apply Z.mod_small; lia|]. rewrite Z.add_comm, Z.div_add by lia. rewrite Z.div_small; lia. }
  destruct (Z.ltb_spec st 0xC0) as [L1|L1].
  { apply two_of in N as (a & b & ->). assert (Da := Forall_inv D). assert (Db := Forall_inv (Forall_inv_tail D)). unfold RtpSpec.data_byte in *.
    assert (C : 0x80 <= st < 0x90 \/ 0x90 <= st < 0xA0 \/ 0xA0 <= st < 0xB0 \/ 0xB0 <= st < 0xC0) by lia.
    destruct C as [C|[C|[C|C]]]; [exists (NoteOff (st - 0x80) a b)|exists (NoteOn (st - 0x90) a b)|exists (KeyPressure (st - 0xA0) a b)|exists (Control (st - 0xB0) a b)];
      (split; [cbn; unfold chan_ok, data_ok; lia|cbn [encode]; f_equal; lia]). }
  destruct (Z.ltb_spec st 0xE0) as [L2|L2].
  { apply one_of in N as (a & ->). assert (Da := Forall_inv D). unfold RtpSpec.data_byte in *. assert (C : 0xC0 <= st < 0xD0 \/ 0xD0 <= st < 0xE0) by lia.
    destruct C as [C|C]; [exists (Program (st - 0xC0) a)|exists (ChannelPressure (st - 0xD0) a)]; (split; [cbn; unfold chan_ok, data_ok; lia|cbn [encode]; f_equal; lia]). }
  destruct (Z.ltb_spec st 0xF0) as [L3|L3].
  { apply two_of in N as (a & b & ->). destruct (V a b (Forall_inv D) (Forall_inv (Forall_inv_tail D))) as (V1 & V2 & V3).
    exists (Bend (st - 0xE0) (b * 128 + a)). split; [cbn; unfold chan_ok; lia|]. cbn [encode]. rewrite V2, V3. f_equal. lia. }
  destruct S as [S|[->|[->|[->|[->|S]]]]]; [lia| | | | |].
  - apply one_of in N as (a & ->). exists (QuarterFrame a). split; [exact (Forall_inv D)|reflexivity].
  - apply two_of in N as (a & b & ->). destruct (V a b (Forall_inv D) (Forall_inv (Forall_inv_tail D))) as (V1 & V2 & V3).
    exists (SongPosition (b * 128 + a)). split; [exact V1|]. cbn [encode]. rewrite V2, V3. reflexivity.
  - apply one_of in N as (a & ->). exists (SongSelect a). split; [exact (Forall_inv D)|reflexivity].
  - destruct ds; [|discriminate]. exists TuneRequest. split; [exact Logic.I|reflexivity].
  - rewrite (proj2 (Z.eqb_neq st 0xF1)), (proj2 (Z.eqb_neq st 0xF3)), (proj2 (Z.eqb_neq st 0xF2)) in N by lia. destruct ds; [|discriminate].
    assert (C : st = 0xFF \/ 0xF8 <= st <= 0xFE) by lia. destruct C as [->|C]; [exists SystemReset; split; [exact Logic.I|reflexivity]|exists (RealTime st); split; [exact C|reflexivity]].
Qed.
Lemma items_messages l : Forall (fun it => RtpSpec.command_ok (RtpSpec.it_cmd it)) l -> (length (flat_map (fun it => RtpSpec.midi_bytes (RtpSpec.it_cmd it)) l) <= 256)%nat ->
  exists ms, Forall msg_ok ms /\ RxSpec.stream ms = flat_map (fun it => RtpSpec.midi_bytes (RtpSpec.it_cmd it)) l.
Proof.
  induction 1 as [|it l C _ IH]; intros L; [exists []; split; [constructor|reflexivity]|]. cbn [flat_map] in *. rewrite app_length in L.
  destruct (command_message _ C ltac:(lia)) as (m & M & E). destruct (IH ltac:(lia)) as (ms & Ms & Es). exists (m :: ms). split; [constructor; assumption|].
  unfold RxSpec.stream in *. cbn [flat_map]. congruence.
Qed.
Theorem packet_brings hdr sec journal : RtpSpec.packet_ok hdr sec journal -> RtpSpec.handled sec -> session_data (RtpSpec.rtp_packet hdr sec journal) = false ->
  exists l, RxSpec.stream l = RtpSpec.stream sec /\ brings 2 (RtpSpec.rtp_packet hdr sec journal) l.
Proof.
  intros P Hh S. assert (Hs : RtpSpec.section_ok sec) by apply P. assert (H255 : RtpSpec.list_length sec <= 255) by apply Hh. assert (SL := stream_length sec Hs).
  destruct (items_messages _ (section_commands sec Hs)) as (l & Hl & E); [unfold RtpSpec.stream in SL; lia|].
  exists l. split; [exact E|]. constructor; assumption.
Qed.
