(** The cartridge is recognised, and only what was found is touched. *)
From Verif Require Import Base BaseLemmas RingBufModel RingBufSpec RingBufProofs SerialModel SynthModel SramModel BusModel BusSpec BusProofs BusSerialProofs CartModel CartSpec.
Local Open Scope b_scope.

(** ** Executions that keep [I], make accesses within [P] and fail only if [V] *)
Definition stays {A} (V : Prop) (I : drv -> Prop) (P : bus -> Prop) (Q : A -> Prop) (r : bres A) : Prop :=
  match r with BDone a s _ o => Forall P o /\ I s /\ Q a | BWaits o => Forall P o | BFault _ => V end.
Section Stays.
Context (V : Prop) (I : drv -> Prop) (P : bus -> Prop).
Definition kind {A} (m : B A) (Q : A -> Prop) : Prop := forall s ans, I s -> stays V I P Q (m s ans).
Lemma kind_ret {A} (a : A) (Q : A -> Prop) : Q a -> kind (bret a) Q.
Proof. intros H s ans Hs. cbn. auto. Qed.
Lemma kind_fail {A} f (Q : A -> Prop) : V -> kind (bfail f) Q.
Proof. intros HV s ans Hs. exact HV. Qed.
Lemma kind_bind {A C} (m : B A) (k : A -> B C) (Q : A -> Prop) (R : C -> Prop) : kind m Q -> (forall a, Q a -> kind (k a) R) -> kind (bbind m k) R.
Proof.
  intros Hm Hk s ans Hs. specialize (Hm s ans Hs). unfold bbind. destruct (m s ans) as [a s1 r1 o1|o1|f]; cbn [stays] in *; try exact Hm.
  destruct Hm as (H1 & H2 & H3). specialize (Hk a H3 s1 r1 H2). destruct (k a s1 r1) as [c s3 r3 o3|o3|f]; cbn [stays] in *; try exact Hk.
  - destruct Hk as (K1 & K2 & K3). split; [apply Forall_app; auto|auto].
  - apply Forall_app; auto.
Qed.
Lemma kind_weak {A} (m : B A) (Q R : A -> Prop) : kind m Q -> (forall a, Q a -> R a) -> kind m R.
Proof. intros Hm H s ans Hs. specialize (Hm s ans Hs). destruct (m s ans); cbn in *; intuition. Qed.
Lemma kind_read w a (Q : Z -> Prop) : (forall v, P (Rd w a v)) -> (forall v, Q v) -> kind (mem_read w a) Q.
Proof. intros H1 H2 s ans Hs. unfold mem_read. destruct ans; cbn; auto. Qed.
Lemma kind_write w a v (Q : unit -> Prop) : (forall v, P (Wr w a v)) -> Q tt -> kind (mem_write w a v) Q.
Proof. intros H1 H2 s ans Hs. cbn. auto. Qed.
Lemma kind_mod f (Q : unit -> Prop) : (forall s, I s -> I (f s)) -> Q tt -> kind (bmod f) Q.
Proof. intros H1 H2 s ans Hs. cbn. auto. Qed.
Lemma kind_gets {A} (f : drv -> A) (Q : A -> Prop) : (forall s, I s -> Q (f s)) -> kind (bgets f) Q.
Proof. intros H1 s ans Hs. cbn. auto. Qed.
Lemma kind_rounds n (m : B bool) : kind m (fun _ => True) -> kind (rounds n m) (fun _ => True).
Proof.
  intros Hm. induction n as [|n IH]; cbn [rounds]; [intros s ans Hs; cbn; constructor|].
  apply (kind_bind _ _ _ _ Hm). intros [|] _; [exact IH|apply kind_ret; exact Logic.I].
Qed.
Lemma kind_loop (m : B bool) : kind m (fun _ => True) -> kind (loop m) (fun _ => True).
Proof. intros Hm s ans Hs. exact (kind_rounds _ _ Hm s ans Hs). Qed.
Lemma kind_wait (m : B bool) : kind m (fun _ => True) -> kind (wait_for m) (fun _ => True).
Proof. intros Hm. apply kind_loop. apply (kind_bind _ _ _ _ Hm). intros a _. apply kind_ret. exact Logic.I. Qed.

(** ** The drivers *)
Let T {A} : A -> Prop := fun _ => True.
Context (Iled : forall s b, I s -> (exists v, P (Wr W16 0xA130F0 v)) -> I (set_led b s)).
Context (Iin : forall s b r q, I s -> ring_repr r 512 q -> (b = dv_recv s \/ b = true) -> I (set_in b r s)).
Context (Iring : forall s, I s -> (exists q, ring_repr (dv_ring s) 512 q) /\ (dv_ext s = true -> dv_cb s = true)).
Context (Icart : forall s, I s -> dv_cart s = NoCart /\ dv_port s = 0).

Definition can (a : Z) : Prop := forall w, (forall v, P (Rd w a v)) /\ (forall v, P (Wr w a v)).
Context (Prx : can 0xA10017) (Pst : can 0xA10019).

Lemma kind_x7_ready : can 0xA130E4 -> kind comm_everdrive_read_ready T.
Proof. intros H. apply (kind_bind _ _ T); [apply kind_read; [exact (proj1 (H W16))|intros; exact Logic.I]|]. intros a _. apply kind_ret. exact Logic.I. Qed.
Lemma kind_x7_wready : can 0xA130E4 -> kind comm_everdrive_write_ready T.
Proof. intros H. apply (kind_bind _ _ T); [apply kind_read; [exact (proj1 (H W16))|intros; exact Logic.I]|]. intros a _. apply kind_ret. exact Logic.I. Qed.
Lemma kind_pro_ready : can 0xA130D2 -> kind comm_everdrive_pro_read_ready T.
Proof.
  intros H. apply (kind_bind _ _ T); [|intros a _; apply kind_ret; exact Logic.I].
  apply (kind_bind _ _ T); [apply kind_read; [exact (proj1 (H W16))|intros; exact Logic.I]|]. intros a _. apply kind_ret. exact Logic.I.
Qed.
Lemma kind_blink : can 0xA130F0 -> kind everdrive_led_blink T.
Proof.
  intros H. apply (kind_bind _ _ T); [apply kind_gets; intros; exact Logic.I|]. intros l _. destruct l; cbn [bwhen negb]; [apply kind_ret; exact Logic.I|].
  apply (kind_bind _ _ T); [apply kind_write; [exact (proj2 (H W16))|exact Logic.I]|]. intros _ _. apply kind_mod; [|exact Logic.I].
  intros s Hs. apply Iled; [exact Hs|]. exists 0. apply (proj2 (H W16)).
Qed.
Lemma kind_words n : can 0xA130D0 -> kind (fifo_words n) T.
Proof.
  intros H. induction n as [|n IH]; cbn [fifo_words]; [apply kind_ret; exact Logic.I|].
  apply (kind_bind _ _ T); [apply kind_read; [exact (proj1 (H W16))|intros; exact Logic.I]|]. intros a _.
  apply (kind_bind _ _ T); [exact IH|]. intros r _. apply kind_ret. exact Logic.I.
Qed.
Lemma kind_blocks n : can 0xA130D0 -> can 0xA130D2 -> forall len, kind (fifo_blocks n len) T.
Proof.
  intros H H2. induction n as [|n IH]; intros len; cbn [fifo_blocks]; destruct (len =? 0); try (apply kind_ret; exact Logic.I).
  - intros s ans Hs. cbn. constructor.
  - apply (kind_bind _ _ T); [apply kind_read; [exact (proj1 (H2 W16))|intros; exact Logic.I]|]. intros a _. cbn zeta.
    apply (kind_bind _ _ T); [apply kind_words; exact H|]. intros b _. apply (kind_bind _ _ T); [apply IH|]. intros c _. apply kind_ret. exact Logic.I.
Qed.
Lemma kind_fifo_wr l : can 0xA130D0 -> kind (bi_fifo_wr l) T.
Proof.
  intros H. induction l as [|d l IH]; cbn [bi_fifo_wr]; [apply kind_ret; exact Logic.I|].
  apply (kind_bind _ _ T); [apply kind_write; [exact (proj2 (H W16))|exact Logic.I]|]. intros _ _. exact IH.
Qed.
Lemma kind_x7_write l : can 0xA130E2 -> can 0xA130E4 -> kind (comm_everdrive_write l) T.
Proof.
  intros H H2. induction l as [|d l IH]; cbn [comm_everdrive_write]; [apply kind_ret; exact Logic.I|].
  apply (kind_bind _ _ T); [apply kind_wait, kind_x7_wready; exact H2|]. intros _ _.
  apply (kind_bind _ _ T); [apply kind_write; [exact (proj2 (H W16))|exact Logic.I]|]. intros _ _. exact IH.
Qed.
Lemma kind_port : kind (bgets dv_port) (fun p => p = 0).
Proof. apply kind_gets. intros s Hs. exact (proj2 (Icart s Hs)). Qed.
Lemma kind_serial_wready : kind serial_readyToSend T.
Proof.
  apply (kind_bind _ _ _ _ kind_port). intros p ->. apply (kind_bind _ _ T); [apply kind_read; [exact (proj1 (Pst W8))|intros; exact Logic.I]|].
  intros a _. apply kind_ret. exact Logic.I.
Qed.
Lemma kind_serial_rready : kind serial_readyToReceive T.
Proof.
  apply (kind_bind _ _ _ _ kind_port). intros p ->. apply (kind_bind _ _ T); [apply kind_read; [exact (proj1 (Pst W8))|intros; exact Logic.I]|].
  intros a _. apply kind_ret. exact Logic.I.
Qed.
Lemma kind_serial_receive : kind serial_receive T.
Proof. apply (kind_bind _ _ _ _ kind_port). intros p ->. apply kind_read; [exact (proj1 (Prx W8))|intros; exact Logic.I]. Qed.
Lemma kind_serial_write l : can 0xA10015 -> kind (comm_serial_write l) T.
Proof.
  intros H. induction l as [|d l IH]; cbn [comm_serial_write]; [apply kind_ret; exact Logic.I|].
  apply (kind_bind _ _ T); [apply kind_wait, kind_serial_wready|]. intros _ _.
  apply (kind_bind _ _ T); [|intros _ _; exact IH]. apply (kind_bind _ _ _ _ kind_port). intros p ->. apply kind_write; [exact (proj2 (H W8))|exact Logic.I].
Qed.
Lemma kind_update : kind update_buffer T.
Proof.
  apply kind_loop. apply (kind_bind _ _ T _ kind_serial_rready). intros [|] _; [|apply kind_ret; exact Logic.I].
  intros s ans Hs. unfold bbind, serial_receive, bgets, bbind. rewrite (proj2 (Icart s Hs)). unfold mem_read. destruct ans as [|v t]; [constructor|].
  destruct (Iring s Hs) as [(q & Hq) _].
  destruct (ring_write_step _ _ _ (fit W8 v) Hq) as (r' & E & R'); [unfold fit, u8, byte; apply Z.mod_pos_bound; lia|]. rewrite E. cbn [stays Datatypes.app].
  split; [constructor; [apply Prx|constructor]|]. split; [exact (Iin s true r' _ Hs R' (or_intror eq_refl))|exact Logic.I].
Qed.
Lemma kind_interrupt : kind ext_interrupt T.
Proof.
  intros s ans Hs. destruct (Iring s Hs) as [_ Hcb]. unfold ext_interrupt, bbind at 1, bgets at 1. destruct (dv_ext s) eqn:E.
  - unfold bbind, bgets. rewrite (Hcb eq_refl). assert (K := kind_update s ans Hs). destruct (update_buffer s ans) as [u s1 r1 o1|o1|f]; exact K.
  - cbn. repeat split; [constructor|exact Hs].
Qed.
Lemma kind_serial_take : kind comm_serial_read T.
Proof.
  intros s ans Hs. unfold comm_serial_read, serial_read. destruct (Iring s Hs) as [(q & Hq) _].
  destruct (ring_step_refines _ _ _ RRead Hq Logic.I) as (r' & E & R'). cbn [ring_step fifo_step] in *. unfold bind in E.
  destruct (ring_buf_read (dv_ring s)) as [[st d] r1 o|f]; [|discriminate E]. cbn in E.
  assert (Er : r1 = r') by (destruct q; injection E; congruence). subst r1.
  assert (Hi : I (set_in (dv_recv s) r' s)) by (destruct q; eapply Iin; try exact Hs; try exact R'; auto).
  destruct st, d; cbn [stays]; (split; [constructor|]; split; [exact Hi|exact Logic.I]).
Qed.
Lemma kind_cart : kind (bgets dv_cart) (fun c => c = NoCart).
Proof. apply kind_gets. intros s Hs. exact (proj1 (Icart s Hs)). Qed.
Lemma kind_store op : kind (bus_step op) T.
Proof. destruct op as [n p|n]; cbn [bus_step]; apply (kind_bind _ _ _ _ kind_cart); intros c ->; apply kind_ret; exact Logic.I. Qed.
Lemma kind_load : kind bus_load_presets T.
Proof. apply (kind_bind _ _ _ _ kind_cart). intros c ->. apply kind_ret. exact Logic.I. Qed.

(** ** The transports *)
Definition way_can (w : way) : Prop :=
  match w with
  | ViaX7 => can 0xA130E2 /\ can 0xA130E4 /\ can 0xA130F0
  | ViaPro => can 0xA130D0 /\ can 0xA130D2 /\ can 0xA130F0
  | ViaSerial => can 0xA10015
  | ViaOther => True
  end.
Lemma kind_ready other w : way_can w -> kind (way_ready other w) T.
Proof.
  intros H. destruct w; cbn [way_ready way_can] in *; [apply kind_x7_ready; tauto|apply kind_pro_ready; tauto|apply kind_gets; intros; exact Logic.I|apply kind_ret; exact Logic.I].
Qed.
Lemma kind_way_read w : way_can w -> kind (way_read w) T.
Proof.
  intros H. destruct w; cbn [way_read way_can] in *; [| | |apply kind_ret; exact Logic.I]; (apply (kind_bind _ _ T); [|intros d _; apply kind_ret; exact Logic.I]).
  - destruct H as (A & C & L). apply (kind_bind _ _ T _ (kind_blink L)). intros _ _. apply (kind_bind _ _ T); [apply kind_read; [exact (proj1 (A W16))|intros; exact Logic.I]|]. intros; apply kind_ret; exact Logic.I.
  - destruct H as (A & C & L). apply (kind_bind _ _ T _ (kind_blink L)). intros _ _. apply (kind_bind _ _ T); [|intros; apply kind_ret; exact Logic.I].
    intros s ans Hs. exact (kind_blocks _ A C 1 s ans Hs).
  - exact kind_serial_take.
Qed.
Lemma kind_way_write w l : way_can w -> kind (way_write w l) T.
Proof.
  intros H. destruct w; cbn [way_write way_can comm_write] in *.
  - destruct H as (A & C & L). apply (kind_bind _ _ T); [apply kind_wait, kind_x7_wready; exact C|]. intros _ _. apply kind_x7_write; assumption.
  - destruct H as (A & C & L). unfold comm_everdrive_pro_write, bi_cmd_usb_wr, bi_cmd_tx. cbn zeta.
    apply (kind_bind _ _ T); [apply kind_fifo_wr; exact A|]. intros _ _. apply (kind_bind _ _ T); [apply kind_fifo_wr; exact A|]. intros _ _. apply kind_fifo_wr; exact A.
  - apply (kind_bind _ _ T); [apply kind_wait, kind_serial_wready|]. intros _ _. apply kind_serial_write. exact H.
  - apply kind_ret. exact Logic.I.
Qed.

Section Loop.
Context (x7 pro : bool) (U : way -> Prop).
Context (Hcan : forall w, U w -> way_can w).
Context (Htick : kind everdrive_led_tick T).
Definition act_ok (act : option way) : Prop := match act with Some w => U w | None => forall w, way_present x7 pro w = true -> U w end.
Definition used (act act' : option way) : Prop := act_ok act' /\ (act <> None -> act' = act).
Lemma kind_scan other l : (forall w, way_present x7 pro w = true -> U w) -> kind (scan_ways x7 pro other l) act_ok.
Proof.
  intros HU. induction l as [|w l IH]; cbn [scan_ways]; [apply kind_ret; exact HU|]. destruct (way_present x7 pro w) eqn:Ew; [|exact IH].
  apply (kind_bind _ _ T); [apply kind_ready, Hcan, HU; exact Ew|]. intros [|] _; [apply kind_ret; exact (HU w Ew)|exact IH].
Qed.
Lemma kind_read_ready other act : act_ok act -> kind (bus_read_ready x7 pro other act) (fun r => used act (fst r) /\ (snd r = true -> fst r <> None)).
Proof.
  intros Ha. destruct act as [w|]; cbn [bus_read_ready].
  - apply (kind_bind _ _ T); [apply kind_ready, Hcan; exact Ha|]. intros r _. apply kind_ret. split; [split; [exact Ha|reflexivity]|discriminate].
  - apply (kind_bind _ _ _ _ (kind_scan other commTypes Ha)). intros a Hr. apply kind_ret. split; [split; [exact Hr|congruence]|]. destruct a; discriminate.
Qed.
Lemma kind_cart_step op act : act_ok act -> (act = None -> is_write op -> V) -> kind (cart_step x7 pro op act) (fun r => used act (fst r)).
Proof.
  intros Ha HV. destruct op as [other|other|data| |op| |]; cbn [cart_step].
  - apply (kind_bind _ _ _ _ (kind_read_ready other act Ha)). intros [a r] [Hr _]. apply kind_ret. exact Hr.
  - apply (kind_bind _ _ _ _ (kind_read_ready other act Ha)). intros [a r] [Hr Hn]. cbn [fst snd] in *. destruct r; [|apply kind_ret; exact Hr].
    destruct a as [w|]; [|destruct (Hn eq_refl eq_refl)]. apply (kind_bind _ _ T); [apply kind_way_read, Hcan; exact (proj1 Hr)|]. intros d _. apply kind_ret. exact Hr.
  - destruct act as [w|]; [|apply kind_fail; apply HV; [reflexivity|exists data; reflexivity]].
    apply (kind_bind _ _ T); [apply kind_way_write, Hcan; exact Ha|]. intros _ _. apply kind_ret. split; [exact Ha|reflexivity].
  - apply (kind_bind _ _ T _ Htick). intros _ _. apply kind_ret. split; [exact Ha|reflexivity].
  - apply (kind_bind _ _ T _ (kind_store op)). intros _ _. apply kind_ret. split; [exact Ha|reflexivity].
  - apply (kind_bind _ _ T _ kind_load). intros _ _. apply kind_ret. split; [exact Ha|reflexivity].
  - apply (kind_bind _ _ T _ kind_interrupt). intros _ _. apply kind_ret. split; [exact Ha|reflexivity].
Qed.
Lemma kind_cart_run ops : forall act, act_ok act -> (act = None -> Exists is_write ops -> V) -> kind (cart_run x7 pro ops act) (fun r => used act (fst r)).
Proof.
  induction ops as [|op ops IH]; intros act Ha HV; cbn [cart_run]; [apply kind_ret; split; [exact Ha|reflexivity]|].
  apply (kind_bind _ _ _ _ (kind_cart_step op act Ha ltac:(intros H1 H2; apply HV; [exact H1|constructor; exact H2]))). intros a [H1 H2].
  assert (HV' : fst a = None -> Exists is_write ops -> V).
  { intros K1 K2. apply HV; [|apply Exists_cons_tl; exact K2]. destruct act as [w|]; [|reflexivity]. rewrite H2 in K1 by discriminate. discriminate K1. }
  apply (kind_bind _ _ _ _ (IH (fst a) H1 HV')). intros b [K1 K2]. apply kind_ret.
  split; [exact K1|]. cbn [fst]. intros Hn. rewrite <- (H2 Hn). apply K2. rewrite (H2 Hn). exact Hn.
Qed.
End Loop.
End Stays.
