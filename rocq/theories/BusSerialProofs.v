(** The serial port on the bus: start-up and receive interrupts. *)
From Verif Require Import Base BaseLemmas RingBufModel RingBufSpec RingBufProofs MidiModel RxModel SerialModel SynthModel SramModel BusModel BusSpec BusProofs.
Local Open Scope b_scope.

(** ** The ring *)
Lemma ring_write_step r n q d : ring_repr r n q -> byte d -> exists r',
  ring_buf_write d r = Done (if Nat.ltb (length q) (Z.to_nat (n - 1)) then RB_OK else RB_FULL) r' [] /\
  ring_repr r' n (if Nat.ltb (length q) (Z.to_nat (n - 1)) then q ++ [d] else q).
Proof.
  intros R B. destruct (ring_step_refines r n q (RWrite d) R B) as (r' & E & R'). exists r'. cbn [ring_step fifo_step] in *.
  unfold bind in E. destruct (ring_buf_write d r) as [st r1 o|f]; [|discriminate]. cbn in E.
  destruct (Nat.ltb (length q) (Z.to_nat (n - 1))); cbn [fst snd] in *; injection E as -> -> Eo; rewrite app_nil_r in Eo; subst o; auto.
Qed.
Lemma ring_read_step r n x q : ring_repr r n (x :: q) -> exists r', ring_buf_read r = Done (RB_OK, Some x) r' [] /\ ring_repr r' n q.
Proof.
  intros R. destruct (ring_step_refines r n (x :: q) RRead R Logic.I) as (r' & E & R'). exists r'. cbn [ring_step fifo_step] in *.
  unfold bind in E. destruct (ring_buf_read r) as [[st d] r1 o|f]; [|discriminate]. cbn in E. injection E as -> -> -> Eo. rewrite app_nil_r in Eo. subst o. auto.
Qed.
Lemma ring_ready_step r n q : ring_repr r n q -> ring_buf_can_read r = match q with [] => false | _ => true end.
Proof.
  intros R. destruct (ring_step_refines r n q RCanRead R Logic.I) as (r' & E & R'). cbn in E. injection E as E _. exact E.
Qed.
Lemma holds_of_repr r n q : ring_repr r n q -> ring_holds r q.
Proof.
  intros R. unfold ring_holds. destruct (ring_run_refines n (repeat RRead (length q) ++ [RRead]) r q R) as (r' & E & _).
  { apply Forall_forall. intros o [H|[<- |[]]]%in_app_iff; [apply repeat_spec in H; subst o|]; exact Logic.I. }
  exists r'. rewrite E. f_equal. clear. induction q as [|x q IH]; [reflexivity|]. cbn [length repeat Datatypes.app fifo_run fifo_step map].
  destruct (fifo_run _ q _) as [q2 xs]. cbn [snd] in *. f_equal. exact IH.
Qed.

(** ** Care with the receive register *)
Fixpoint rx_careful (ok : bool) (tr : list bus) : Prop :=
  match tr with
  | [] => True
  | Rd W8 a v :: l => (a = 0xA10017 -> ok = true) /\ rx_careful ((a =? 0xA10019) && Z.testbit v 1) l
  | _ :: l => rx_careful false l
  end.
Lemma rx_careful_polite tr : rx_careful false tr -> rx_polite tr.
Proof.
  intros Hc pre v post E.
  assert (G : forall l ok pre, l = pre ++ Rd W8 0xA10017 v :: post -> rx_careful ok l ->
    (pre = [] /\ ok = true) \/ exists pre' x, pre = pre' ++ [Rd W8 0xA10019 x] /\ Z.testbit x 1 = true).
  { clear. induction l as [|e l IH]; intros ok pre E Hc; [destruct pre; discriminate|]. destruct pre as [|e' pre].
    - left. injection E as -> ->. cbn in Hc. split; [reflexivity|]. apply Hc. reflexivity.
    - injection E as <- E. right. cbn in Hc.
      assert (N : rx_careful false l -> exists pre' x, e :: pre = pre' ++ [Rd W8 0xA10019 x] /\ Z.testbit x 1 = true).
      { intros H. destruct (IH false pre E H) as [(_ & F)|(pre' & x & -> & F)]; [discriminate F|exists (e :: pre'), x; auto]. }
      destruct e as [[|] a x|w a x|r x|x|x]; try (apply N; exact Hc). destruct Hc as [_ Hc].
      destruct (IH _ _ E Hc) as [(-> & F)|(pre' & y & -> & F)]; [|exists (Rd W8 a x :: pre'), y; auto].
      apply andb_true_iff in F as [->%Z.eqb_eq F]. exists [], x. auto. }
  destruct (G tr false pre E Hc) as [(_ & F)|H]; [discriminate F|exact H].
Qed.
Lemma rx_careful_app a : forall ok b, rx_careful ok a -> rx_careful false b -> rx_careful ok (a ++ b).
Proof.
  induction a as [|e a IH]; intros ok b Ha Hb.
  - cbn. destruct b as [|[[|] x v|w x v|r v|v|v] b]; cbn in *; auto. destruct Hb as [H Hb]. split; [intros X; specialize (H X); discriminate H|exact Hb].
  - cbn in *. destruct e as [[|] x v|w x v|r v|v|v]; try (apply IH; assumption). destruct Ha as [H Ha]. split; [exact H|apply IH; assumption].
Qed.

Lemma rx_pair v b tr : Z.testbit v 1 = true -> rx_careful false tr -> rx_careful false (Rd W8 0xA10019 v :: Rd W8 0xA10017 b :: tr).
Proof. intros Hv H. cbn [rx_careful]. rewrite Hv. split; [discriminate|]. split; [reflexivity|exact H]. Qed.

(** ** One interrupt *)
Lemma receive_ready s : dv_port s = 0 -> forall v t, serial_readyToReceive s (v :: t) = BDone (Z.testbit (u8 v) 1) s t [Rd W8 0xA10019 (u8 v)].
Proof.
  intros P v t. unfold serial_readyToReceive, bbind, bgets, mem_read, bret. rewrite P. cbn [Datatypes.app fit]. f_equal.
  change SCTRL_RRDY with (2 ^ 1). rewrite land_bit by lia. destruct (Z.testbit (u8 v) 1); reflexivity.
Qed.
Lemma receive_byte s : dv_port s = 0 -> forall v t, serial_receive s (v :: t) = BDone (u8 v) s t [Rd W8 0xA10017 (u8 v)].
Proof. intros P v t. unfold serial_receive, bbind, bgets, mem_read. rewrite P. reflexivity. Qed.
Lemma u8_byte v : byte v -> u8 v = v.
Proof. exact (fit_byte W8 v). Qed.
Definition flagged (s : drv) (l : list Z) : bool := match l with [] => dv_recv s | _ => true end.
Lemma set_in_same s : set_in (dv_recv s) (dv_ring s) s = s.
Proof. destruct s; reflexivity. Qed.

Lemma update_spec l ans : offers l ans -> forall s q n, dv_port s = 0 -> ring_repr (dv_ring s) 512 q -> (length ans < n)%nat ->
  exists r rest tr, rounds n update_buffer_round s ans = BDone tt (set_in (flagged s l) r s) rest tr /\
    ring_repr r 512 (q ++ firstn (511 - length q) l) /\ fetched 0xA10017 tr = firstn (S (511 - length q)) l /\
    ((length q + length l <= 511)%nat -> rest = []) /\ rx_careful false tr.
Proof.
  induction 1 as [v Hv Bv|v b l a Hv Bv Bb Ho IH]; intros s q n P R L; (destruct n as [|n]; [cbn in L; lia|]); cbn [rounds]; unfold update_buffer_round at 1.
  - unfold bbind at 1. unfold bbind at 1. rewrite (receive_ready s P), u8_byte, Hv by exact Bv. exists (dv_ring s), [], [Rd W8 0xA10019 v].
    cbn [bret Datatypes.app flagged]. rewrite set_in_same, firstn_nil, app_nil_r. repeat split; auto. discriminate.
  - unfold bbind at 1. unfold bbind at 1. rewrite (receive_ready s P), u8_byte, Hv by exact Bv. unfold bbind at 1. rewrite (receive_byte s P), u8_byte by exact Bb.
    destruct (ring_write_step _ _ _ b R Bb) as (r & E & R'). rewrite E. change (Z.to_nat (512 - 1)) with 511%nat in *.
    destruct (Nat.ltb_spec (length q) 511) as [Lq|Lq].
    + set (s1 := set_in true r s). cbn [length] in L.
      destruct (IH s1 (q ++ [b]) n P R' ltac:(lia)) as (r2 & rest & tr & E2 & R2 & F2 & Z2 & C2). rewrite E2. exists r2, rest, ([Rd W8 0xA10019 v; Rd W8 0xA10017 b] ++ tr).
      rewrite app_length in *. cbn [length] in *. replace (511 - length q)%nat with (S (511 - (length q + 1))) by lia.
      split; [destruct l; reflexivity|]. split; [cbn [firstn]; rewrite <- app_assoc in R2; exact R2|].
      split; [rewrite fetched_app, F2; reflexivity|]. split; [intros X; apply Z2; lia|].
      apply (rx_pair v b tr Hv C2).
    + exists r, a, [Rd W8 0xA10019 v; Rd W8 0xA10017 b]. replace (511 - length q)%nat with 0%nat by lia. cbn [firstn length] in *.
      split; [reflexivity|]. rewrite app_nil_r. split; [exact R'|]. split; [reflexivity|]. split; [lia|]. apply (rx_pair v b [] Hv Logic.I).
Qed.
(** The port in use. *)
Record in_use (s : drv) (q : list Z) : Prop := {
  iu_port : dv_port s = 0; iu_ext : dv_ext s = true; iu_cb : dv_cb s = true; iu_ring : ring_repr (dv_ring s) 512 q; iu_flag : dv_recv s = false -> q = [] }.
Lemma interrupt_spec l ans s q : offers l ans -> in_use s q ->
  exists s' rest tr, ext_interrupt s ans = BDone tt s' rest tr /\ in_use s' (q ++ firstn (511 - length q) l) /\ fetched 0xA10017 tr = firstn (S (511 - length q)) l /\
    ((length q + length l <= 511)%nat -> rest = []) /\ rx_careful false tr.
Proof.
  intros O [P X C R F]. unfold ext_interrupt. unfold bbind, bgets. rewrite X. cbv iota. rewrite C. cbv iota. cbn [Datatypes.app].
  destruct (update_spec l ans O s q (S (length ans)) P R ltac:(lia)) as (r & rest & tr & E & R' & G & Z0 & K). unfold update_buffer, loop. rewrite E.
  eexists _, rest, tr. split; [reflexivity|]. split; [|auto]. split; cbn; auto. intros H. destruct l as [|b l]; [|discriminate H]. rewrite (F H). reflexivity.
Qed.
(** Answers that nobody asked for are left. *)
Definition steady {A} (m : B A) : Prop := forall s ans a s' rest tr more, m s ans = BDone a s' rest tr -> m s (ans ++ more) = BDone a s' (rest ++ more) tr.
Lemma steady_bind {A C} (m : B A) (k : A -> B C) : steady m -> (forall a, steady (k a)) -> steady (bbind m k).
Proof.
  intros Hm Hk s ans b s2 r2 o more H. apply bbind_inv in H as (a & s1 & r1 & o1 & o2 & E1 & E2 & ->).
  unfold bbind. rewrite (Hm _ _ _ _ _ _ more E1), (Hk a _ _ _ _ _ _ more E2). reflexivity.
Qed.
Lemma steady_ret {A} (a : A) : steady (bret a).
Proof. intros s ans b s' rest tr more [= <- <- <- <-]. reflexivity. Qed.
Lemma steady_gets {A} (f : drv -> A) : steady (bgets f).
Proof. intros s ans b s' rest tr more [= <- <- <- <-]. reflexivity. Qed.
Lemma steady_mod f : steady (bmod f).
Proof. intros s ans b s' rest tr more [= <- <- <- <-]. reflexivity. Qed.
Lemma steady_emit e : steady (bemit e).
Proof. intros s ans b s' rest tr more [= <- <- <- <-]. reflexivity. Qed.
Lemma steady_read w a : steady (mem_read w a).
Proof. intros s [|v t] b s' rest tr more; [discriminate|]. intros [= <- <- <- <-]. reflexivity. Qed.
Lemma steady_rounds body n : steady body -> steady (rounds n body).
Proof.
  intros Hb. induction n as [|n IH]; [intros s ans a s' rest tr more; discriminate|]. cbn [rounds]. apply steady_bind; [exact Hb|]. intros [|]; [exact IH|apply steady_ret].
Qed.
(** More rounds than needed do not matter. *)
Lemma rounds_more body n : forall m s ans s' rest tr, (n <= m)%nat -> rounds n body s ans = BDone tt s' rest tr -> rounds m body s ans = BDone tt s' rest tr.
Proof.
  induction n as [|n IH]; intros m s ans s' rest tr L H; [discriminate|]. destruct m as [|m]; [lia|]. cbn [rounds] in *.
  apply bbind_inv in H as (a & s1 & r1 & o1 & o2 & E1 & H & ->). unfold bbind. rewrite E1. destruct a.
  - rewrite (IH m _ _ _ _ _ ltac:(lia) H). reflexivity.
  - rewrite H. reflexivity.
Qed.
Lemma steady_loop body : steady body -> steady (loop body).
Proof.
  intros Hb s ans [] s' rest tr more H. unfold loop in *. apply (steady_rounds _ _ Hb _ _ _ _ _ _ more) in H.
  apply (rounds_more _ _ _ _ _ _ _ _) with (2 := H). rewrite app_length. lia.
Qed.
Lemma steady_update : steady update_buffer.
Proof.
  apply steady_loop. unfold update_buffer_round. apply steady_bind.
  - unfold serial_readyToReceive. apply steady_bind; [apply steady_gets|]. intros p. apply steady_bind; [apply steady_read|]. intros v. apply steady_ret.
  - intros [|]; [|apply steady_ret]. apply steady_bind; [unfold serial_receive; apply steady_bind; [apply steady_gets|intros p; apply steady_read]|].
    intros d s ans a s' rest tr more H. destruct (ring_buf_write d (dv_ring s)) as [st r o|f]; [|discriminate]. injection H as <- <- <- <-. reflexivity.
Qed.
Lemma steady_interrupt : steady ext_interrupt.
Proof.
  unfold ext_interrupt. apply steady_bind; [apply steady_gets|]. intros [|]; [|apply steady_ret]. apply steady_bind; [apply steady_gets|].
  intros [|]; [apply steady_update|intros s ans a s' rest tr more; discriminate].
Qed.

(** ** Histories *)
Lemma take_spec s q ans : in_use s q -> exists s', port_take s ans = BDone (match q with [] => [] | x :: _ => [x] end) s' ans [] /\ in_use s' (tl q).
Proof.
  intros [P X C R F]. unfold port_take. destruct q as [|x q].
  - rewrite (ring_ready_step _ _ _ R), andb_false_r. exists s. split; [reflexivity|]. split; auto.
  - rewrite (ring_ready_step _ _ _ R). destruct (dv_recv s) eqn:D; [|discriminate (F eq_refl)]. cbn [andb].
    destruct (ring_read_step _ _ _ _ R) as (r & E & R'). unfold serial_read. rewrite E. eexists. split; [reflexivity|]. split; cbn; auto. discriminate.
Qed.
Lemma port_spec evs : forall ls ans s q, within 511 evs ls (length q) -> interrupts evs = length ls -> offers_all ls ans -> in_use s q ->
  exists s' tr, port_run evs s ans = BDone (taken_out evs ls q) s' [] tr /\ in_use s' (left_over evs ls q) /\ fetched 0xA10017 tr = concat ls /\ rx_careful false tr.
Proof.
  induction evs as [|e evs IH]; intros ls ans s q W N O U.
  - destruct O; [|discriminate N]. exists s, []. repeat split; auto; apply U.
  - cbn [port_run]. destruct e; cbn [port_step].
    + destruct O as [|l ls a b Ol Os]; [discriminate N|]. cbn [within tl hd] in W. destruct W as [Wl W]. injection N as N.
      destruct (interrupt_spec l a s q Ol U) as (s1 & rest & tr1 & E1 & U1 & F1 & Z1 & K1). rewrite (Z1 Wl) in *.
      apply (steady_interrupt _ _ _ _ _ _ b) in E1. cbn [Datatypes.app] in E1.
      rewrite firstn_all2 in U1 by lia. rewrite firstn_all2 in F1 by lia. rewrite <- app_length in W.
      destruct (IH ls b s1 (q ++ l) W N Os U1) as (s2 & tr2 & E2 & U2 & F2 & K2). cbn [taken_out left_over tl hd concat].
      exists s2, (tr1 ++ tr2). unfold bbind. rewrite E1. cbn [bret]. rewrite E2. cbn. rewrite !app_nil_r. split; [reflexivity|]. split; [exact U2|].
      split; [rewrite fetched_app, F1, F2; reflexivity|]. apply rx_careful_app; assumption.
    + destruct (take_spec s q ans U) as (s1 & E1 & U1). cbn [within] in W.
      replace (pred (length q)) with (length (tl q)) in W by (destruct q; reflexivity).
      destruct (IH ls ans s1 (tl q) W N O U1) as (s2 & tr2 & E2 & U2 & F2 & K2).
      exists s2, tr2. unfold bbind. rewrite E1, E2. cbn [bret taken_out left_over Datatypes.app]. rewrite app_nil_r. split; [destruct q; reflexivity|auto].
Qed.

(** ** Start-up *)
Lemma flush_round_eq s ans : dv_port s = 0 -> flush_round s ans =
  match ans with
  | [] => BWaits []
  | v :: t =>
      if Z.testbit (u8 v) 1 then match t with [] => BWaits [Rd W8 0xA10019 (u8 v)] | b :: t => BDone true s t [Rd W8 0xA10019 (u8 v); Rd W8 0xA10017 (u8 b)] end
      else BDone false s t [Rd W8 0xA10019 (u8 v)]
  end.
Proof.
  intros P. unfold flush_round. destruct ans as [|v t]; [reflexivity|]. unfold bbind at 1. rewrite (receive_ready s P). destruct (Z.testbit (u8 v) 1); [|reflexivity].
  unfold bbind. destruct t as [|b t]; [unfold serial_receive, bbind, bgets, mem_read; reflexivity|]. rewrite (receive_byte s P). reflexivity.
Qed.
Lemma flush_spec l ans : offers l ans -> forall s n, dv_port s = 0 -> (length ans < n)%nat ->
  exists tr, rounds n flush_round s ans = BDone tt s [] tr /\ fetched 0xA10017 tr = l /\ rx_careful false tr.
Proof.
  induction 1 as [v Hv Bv|v b l a Hv Bv Bb Ho IH]; intros s n P L; (destruct n as [|n]; [cbn in L; lia|]); cbn [rounds]; unfold bbind; rewrite (flush_round_eq _ _ P), (u8_byte v), Hv by exact Bv.
  - exists [Rd W8 0xA10019 v]. split; [reflexivity|]. split; [reflexivity|]. cbn [rx_careful]. split; [discriminate|exact Logic.I].
  - rewrite (u8_byte b Bb). cbn [length] in L. destruct (IH s n P ltac:(lia)) as (tr & -> & F & K). eexists. split; [reflexivity|].
    split; [change (b :: fetched 0xA10017 tr = b :: l); f_equal; exact F|]. apply (rx_pair v b tr Hv K).
Qed.

(** The state after the first [k] steps. *)
Record upto (k : nat) (s : drv) : Prop := {
  up_ext : (k < 7)%nat -> dv_ext s = false; up_ring : (1 <= k)%nat -> exists q, ring_repr (dv_ring s) 512 q; up_port : (2 <= k)%nat -> dv_port s = 0;
  up_mask : (5 <= k)%nat -> dv_mask s = 1; up_vdp : (6 <= k)%nat -> (11 < length (dv_vdp s))%nat -> Z.testbit (nth 11 (dv_vdp s) 0) 3 = true;
  up_on : (7 <= k)%nat -> dv_ext s = true; up_cb : (8 <= k)%nat -> dv_cb s = true }.
Lemma update_round_eq s ans : dv_port s = 0 -> update_buffer_round s ans =
  match ans with
  | [] => BWaits []
  | v :: t =>
      if Z.testbit (u8 v) 1 then
        match t with
        | [] => BWaits [Rd W8 0xA10019 (u8 v)]
        | b :: t =>
            match ring_buf_write (u8 b) (dv_ring s) with
            | Fault f => BFault f
            | Done st r _ => BDone (match st with RB_FULL => false | _ => true end) (set_in true r s) t [Rd W8 0xA10019 (u8 v); Rd W8 0xA10017 (u8 b)]
            end
        end
      else BDone false s t [Rd W8 0xA10019 (u8 v)]
  end.
Proof.
  intros P. unfold update_buffer_round. destruct ans as [|v t]; [reflexivity|]. unfold bbind at 1. rewrite (receive_ready s P). destruct (Z.testbit (u8 v) 1); [|reflexivity].
  unfold bbind. destruct t as [|b t]; [unfold serial_receive, bbind, bgets, mem_read; reflexivity|]. rewrite (receive_byte s P). destruct (ring_buf_write _ _); reflexivity.
Qed.
Lemma no_fault_update n : forall s q ans, dv_port s = 0 -> ring_repr (dv_ring s) 512 q ->
  (exists o, rounds n update_buffer_round s ans = BWaits o) \/
  exists f r rest tr, rounds n update_buffer_round s ans = BDone tt (set_in f r s) rest tr /\ written 0xA10019 tr = [] /\ exists q', ring_repr r 512 q'.
Proof.
  induction n as [|n IH]; intros s q ans P R; [left; eexists; reflexivity|]. cbn [rounds]. unfold bbind. rewrite (update_round_eq _ _ P).
  destruct ans as [|v ans]; [left; eexists; reflexivity|]. destruct (Z.testbit (u8 v) 1).
  - destruct ans as [|b ans]; [left; eexists; reflexivity|]. assert (Bb : byte (u8 b)) by (unfold byte, u8; apply Z.mod_pos_bound; lia).
    destruct (ring_write_step _ _ _ (u8 b) R Bb) as (r & E & R'). rewrite !E. destruct (Nat.ltb (length q) _).
    + destruct (IH (set_in true r s) _ ans P R') as [(o & ->)|(f & r2 & rest & tr & -> & W & q' & R2)]; [left; eexists; reflexivity|].
      right. eexists f, r2, rest, _. split; [reflexivity|]. split; [exact W|eauto].
    + right. eexists true, r, ans, _. split; [reflexivity|]. split; [reflexivity|eauto].
  - right. eexists (dv_recv s), (dv_ring s), ans, _. rewrite set_in_same. split; [reflexivity|]. split; [reflexivity|eauto].
Qed.
Lemma no_fault_flush s n : forall ans, dv_port s = 0 ->
  (exists o, rounds n flush_round s ans = BWaits o) \/ exists rest tr, rounds n flush_round s ans = BDone tt s rest tr /\ written 0xA10019 tr = [].
Proof.
  induction n as [|n IH]; intros ans P; [left; eexists; reflexivity|]. cbn [rounds]. unfold bbind. rewrite (flush_round_eq _ _ P).
  destruct ans as [|v ans]; [left; eexists; reflexivity|]. destruct (Z.testbit (u8 v) 1).
  - destruct ans as [|b ans]; [left; eexists; reflexivity|]. destruct (IH ans P) as [(o & ->)|(rest & tr & -> & W)].
    + left. eexists. reflexivity.
    + right. eexists rest, _. split; [reflexivity|exact W].
  - right. eexists ans, _. split; reflexivity.
Qed.

Lemma zset_nth_11 l v : (11 < length l)%nat -> nth 11 (zset l 11 v) 0 = v.
Proof. intros L. assert (E := zget_zset_same l 11 v ltac:(lia)). unfold zget in E. cbn in E. apply nth_error_nth with (1 := E). Qed.
Ltac use_upto U := try lia; first [reflexivity|apply (up_ext _ _ U); lia|apply (up_ring _ _ U); lia|apply (up_port _ _ U); lia|apply (up_mask _ _ U); lia|
  apply (up_on _ _ U); lia|apply (up_cb _ _ U); lia|apply (up_vdp _ _ U); lia|idtac].
Lemma step_spec arr k s ans m : length arr = 512%nat -> length (dv_vdp s) = 24%nat -> upto k s -> nth_error (serial_init_steps arr) k = Some m ->
  (exists o, m s ans = BWaits o) \/
  exists s' rest tr, m s ans = BDone tt s' rest tr /\ upto (S k) s' /\ length (dv_vdp s') = 24%nat /\ written 0xA10019 tr = if Nat.eqb k 2 then [0x38] else [].
Proof.
  intros La Lv U H. destruct k as [|[|[|[|[|[|[|[|[|k]]]]]]]]]; try (cbn in H; injection H as <-).
  - right. eexists _, _, _. split; [reflexivity|]. split; [|auto]. split; cbn; intros; use_upto U. exists []. apply ring_init_repr; lia.
  - right. eexists _, _, _. split; [reflexivity|]. split; [|auto]. split; cbn; intros; use_upto U.
  - right. assert (P := up_port _ _ U ltac:(lia)). unfold bbind, bgets, mem_write, bemit. rewrite P. eexists _, _, _. split; [reflexivity|]. split; [|auto]. split; cbn; intros; use_upto U.
  - right. assert (P := up_port _ _ U ltac:(lia)). unfold bbind, bgets, mem_write, bemit. rewrite P. eexists _, _, _. split; [reflexivity|]. split; [|auto]. split; cbn; intros; use_upto U.
  - right. eexists _, _, _. split; [reflexivity|]. split; [|auto]. split; cbn; intros; use_upto U.
  - right. eexists _, _, _. split; [reflexivity|]. cbn [dv_vdp set_vdp]. rewrite zset_length. split; [|auto]. split; cbn [dv_ext dv_ring dv_port dv_mask dv_vdp dv_cb set_vdp]; intros; use_upto U.
    rewrite zset_nth_11 by lia. unfold u8. change 256 with (2 ^ 8). rewrite Z.mod_pow2_bits_low by lia. rewrite Z.lor_spec. apply orb_true_r.
  - right. eexists _, _, _. split; [reflexivity|]. split; [|auto]. split; cbn; intros; use_upto U.
  - right. eexists _, _, _. split; [reflexivity|]. split; [|auto]. split; cbn; intros; use_upto U.
  - destruct (no_fault_flush s (S (length ans)) ans (up_port _ _ U ltac:(lia))) as [(o & E)|(rest & tr & E & W)]; [left; exists o; exact E|].
    right. exists s, rest, tr. split; [exact E|]. split; [|auto]. split; cbn; intros; use_upto U.
  - cbn in H. destruct k; discriminate H.
Qed.
Lemma int_spec k s ans : k <> 7%nat -> length (dv_vdp s) = 24%nat -> upto k s ->
  (exists o, ext_interrupt s ans = BWaits o) \/
  exists s' rest tr, ext_interrupt s ans = BDone tt s' rest tr /\ upto k s' /\ length (dv_vdp s') = 24%nat /\ written 0xA10019 tr = [].
Proof.
  intros N Lv U. unfold ext_interrupt, bbind, bgets. destruct (Nat.ltb_spec k 7) as [L|L].
  - rewrite (up_ext _ _ U L). right. eexists s, ans, _. split; [reflexivity|]. auto.
  - rewrite (up_on _ _ U L), (up_cb _ _ U ltac:(lia)). destruct (up_ring _ _ U ltac:(lia)) as (q & R).
    destruct (no_fault_update (S (length ans)) s q ans (up_port _ _ U ltac:(lia)) R) as [(o & E)|(f & r & rest & tr & E & W & R')]; unfold update_buffer, loop; rewrite E.
    + left. eexists. reflexivity.
    + right. eexists _, rest, _. split; [reflexivity|]. split; [|split; [exact Lv|exact W]]. split; cbn; intros; try exact R'; use_upto U.
Qed.
Definition flags_upto (k : nat) : list Z := if Nat.leb k 2 then [] else [0x38].
Lemma init_spec arr : length arr = 512%nat -> forall evs done s ans pre, length (dv_vdp s) = 24%nat -> upto (Nat.min done 9) s -> ~ In 7%nat (int_times done evs) ->
  written 0xA10019 pre = flags_upto (Nat.min done 9) ->
  (exists o, init_run evs (skipn (Nat.min done 9) (serial_init_steps arr)) s ans = BWaits o) \/
  exists s' rest tr, init_run evs (skipn (Nat.min done 9) (serial_init_steps arr)) s ans = BDone tt s' rest tr /\
    upto (Nat.min (done + length (filter (fun e => match e with BStep => true | BInt => false end) evs)) 9) s' /\ length (dv_vdp s') = 24%nat /\
    written 0xA10019 (pre ++ tr) = flags_upto (Nat.min (done + length (filter (fun e => match e with BStep => true | BInt => false end) evs)) 9).
Proof.
  intros La. induction evs as [|e evs IH]; intros done s ans pre Lv U N F.
  - right. exists s, ans, []. cbn [filter length]. rewrite Nat.add_0_r, app_nil_r. auto.
  - destruct e; cbn [init_run int_times filter length] in *.
    + destruct (Nat.ltb_spec done 9) as [L|L].
      * rewrite (Nat.min_l done 9) in * by lia. destruct (nth_error (serial_init_steps arr) done) as [m|] eqn:Em; [|apply nth_error_None in Em; cbn in Em; lia].
        assert (Es : skipn done (serial_init_steps arr) = m :: skipn (S done) (serial_init_steps arr)).
        { clear - Em. revert done Em. generalize (serial_init_steps arr). induction l as [|x l IHl]; intros [|k] Em; try discriminate Em; [injection Em as ->; reflexivity|].
          change (skipn (S k) (x :: l)) with (skipn k l). rewrite (IHl k Em). reflexivity. }
        rewrite Es. unfold bbind. destruct (step_spec arr done s ans m La Lv U Em) as [(o & ->)|(s1 & r1 & tr1 & -> & U1 & Lv1 & W1)]; [left; eexists; reflexivity|].
        specialize (IH (S done) s1 r1 (pre ++ tr1) Lv1). rewrite (Nat.min_l (S done) 9) in IH by lia.
        destruct (IH U1 N) as [(o & ->)|(s2 & r2 & tr2 & -> & U2 & Lv2 & W2)].
        { rewrite written_app, F, W1. unfold flags_upto. destruct (Nat.eqb_spec done 2) as [->|Nd]; [reflexivity|].
          destruct (Nat.leb_spec done 2), (Nat.leb_spec (S done) 2); try lia; reflexivity. }
        { left. eexists. reflexivity. }
        right. eexists s2, r2, _. split; [reflexivity|]. rewrite app_assoc. rewrite Nat.add_succ_r. auto.
      * rewrite (Nat.min_r done 9) in * by lia. specialize (IH (S done) s ans pre Lv). rewrite (Nat.min_r (S done) 9) in IH by lia.
        destruct (IH U N F) as [(o & E)|(s2 & r2 & tr2 & E & U2 & Lv2 & W2)]; cbn [skipn serial_init_steps] in *; [left; exists o; exact E|].
        right. exists s2, r2, tr2. rewrite Nat.add_succ_r. auto.
    + destruct (int_spec (Nat.min done 9) s ans) as [(o & E)|(s1 & r1 & tr1 & E & U1 & Lv1 & W1)]; [intros X; apply N; left; lia|exact Lv|exact U| |].
      * left. exists o. apply bbind_waits. exact E.
      * unfold bbind. rewrite E. destruct (IH done s1 r1 (pre ++ tr1) Lv1 U1) as [(o & ->)|(s2 & r2 & tr2 & -> & U2 & Lv2 & W2)];
          [intros X; apply N; right; exact X|rewrite written_app, F, W1; apply app_nil_r|left; eexists; reflexivity|].
        right. eexists s2, r2, _. split; [reflexivity|]. rewrite app_assoc. auto.
Qed.
Theorem startup_safe arr s evs ans : length arr = 512%nat -> length (dv_vdp s) = 24%nat -> dv_ext s = false -> ~ In 7%nat (int_times 0 evs) ->
  match init_run evs (serial_init_steps arr) s ans with
  | BFault _ => False
  | BWaits _ => True
  | BDone _ s' _ tr => (9 <= length (filter (fun e => match e with BStep => true | BInt => false end) evs))%nat -> interruptible s' tr /\ dv_cb s' = true
  end.
Proof.
  intros La Lv X N. assert (U : upto 0 s) by (split; intros; try lia; auto).
  destruct (init_spec arr La evs 0 s ans [] Lv U N eq_refl) as [(o & E)|(s' & rest & tr & E & U' & Lv' & W)]; cbn [Nat.min skipn] in E; rewrite E; [exact Logic.I|].
  intros L. cbn [Datatypes.app] in W. rewrite Nat.min_r in * by lia. destruct U'. split; [|apply up_cb0; lia]. split; [exists 0x38; split; [exact W|reflexivity]|].
  split; [apply up_vdp0; lia|]. split; [rewrite up_mask0 by lia; lia|apply up_on0; lia].
Qed.
(** Seven of the nine steps, then an interrupt. *)
Lemma seven arr s ans : length (dv_vdp s) = 24%nat -> dv_cb s = false -> exists s1 tr, init_run (repeat BStep 7) (serial_init_steps arr) s ans = BDone tt s1 ans tr /\ interruptible s1 tr /\
  init_run (repeat BStep 7 ++ [BInt]) (serial_init_steps arr) s ans = BFault F_null.
Proof.
  intros Lv C. eexists _, _. split; [reflexivity|]. split.
  - split; [exists 0x38; split; reflexivity|]. cbn [dv_vdp set_ext set_vdp dv_mask dv_ext set_mask set_port set_in].
    split; [|split; [lia|reflexivity]]. rewrite zset_nth_11 by lia. unfold u8. change 256 with (2 ^ 8). rewrite Z.mod_pow2_bits_low by lia. rewrite Z.lor_spec. apply orb_true_r.
  - cbn. unfold ext_interrupt, bbind, bgets. cbn. rewrite C. reflexivity.
Qed.
(** ** From start-up on *)
Lemma in_turn_snoc l m s ans s1 r1 o1 s2 r2 o2 : in_turn l s ans = BDone tt s1 r1 o1 -> m s1 r1 = BDone tt s2 r2 o2 -> in_turn (l ++ [m]) s ans = BDone tt s2 r2 (o1 ++ o2).
Proof.
  revert s ans o1. induction l as [|x l IH]; intros s ans o1 E1 E2.
  - injection E1 as -> -> <-. cbn [Datatypes.app in_turn]. unfold bbind. rewrite E2. cbn [bret]. rewrite app_nil_r. reflexivity.
  - cbn [in_turn Datatypes.app] in *. apply bbind_inv in E1 as ([] & s3 & r3 & o3 & o4 & E0 & E1 & ->). unfold bbind. rewrite E0, (IH _ _ _ E1 E2), app_assoc. reflexivity.
Qed.
Lemma steady_flush : steady flush_rrdy.
Proof.
  apply steady_loop. unfold flush_round. apply steady_bind.
  - unfold serial_readyToReceive. apply steady_bind; [apply steady_gets|]. intros p. apply steady_bind; [apply steady_read|]. intros v. apply steady_ret.
  - intros [|]; [|apply steady_ret]. apply steady_bind; [unfold serial_receive; apply steady_bind; [apply steady_gets|intros p; apply steady_read]|]. intros d. apply steady_ret.
Qed.
Lemma steady_init arr : steady (in_turn (serial_init_steps arr)).
Proof.
  cbn [serial_init_steps in_turn]. repeat (apply steady_bind; [first [apply steady_mod|apply steady_gets|apply steady_emit|apply steady_flush|
    apply steady_bind; [first [apply steady_gets|apply steady_mod]|intros; first [apply steady_emit|apply steady_bind; [apply steady_mod|intros; apply steady_emit]]]]|intros _]).
  apply steady_ret.
Qed.
Lemma init_in_use arr s junk a0 : length arr = 512%nat -> offers junk a0 -> exists s1 tr, in_turn (serial_init_steps arr) s a0 = BDone tt s1 [] tr /\ in_use s1 [] /\
  fetched 0xA10017 tr = junk /\ rx_careful false tr.
Proof.
  intros La O.
  set (s8 := set_cb true (set_ext true (set_vdp (zset (dv_vdp s) 11 (u8 (Z.lor (nth 11 (dv_vdp s) 0) 8))) (set_mask 1 (set_port 0 (set_in (dv_recv s) (mkRing (Some arr) 0 0 512) s)))))).
  destruct (flush_spec junk a0 O s8 (S (length a0)) eq_refl ltac:(lia)) as (tr & E & F & K).
  exists s8, ([Wr W8 0xA10019 0x38; Wr W8 0xA1000B 0x7F; IntMask 1; Vdp 11 (u8 (Z.lor (nth 11 (dv_vdp s) 0) 8))] ++ tr).
  split; [|split; [split; auto; apply ring_init_repr; lia|split; [exact F|exact K]]].
  change (serial_init_steps arr) with (removelast (serial_init_steps arr) ++ [flush_rrdy]). apply in_turn_snoc with (s1 := s8) (r1 := a0); [reflexivity|exact E].
Qed.
(** Everything that arrives is delivered. *)
Theorem received arr s junk a0 evs ls ans : length arr = 512%nat -> offers junk a0 -> offers_all ls ans -> interrupts evs = length ls -> within 511 evs ls 0 ->
  exists s' tr, (in_turn (serial_init_steps arr) ;; port_run evs) s (a0 ++ ans) = BDone (taken_out evs ls []) s' [] tr /\
    fetched 0xA10017 tr = junk ++ concat ls /\ rx_polite tr /\ ring_holds (dv_ring s') (left_over evs ls []).
Proof.
  intros La O Os N W. destruct (init_in_use arr s junk a0 La O) as (s1 & tr1 & E1 & U1 & F1 & K1).
  apply (steady_init arr _ _ _ _ _ _ ans) in E1. cbn [Datatypes.app] in E1. destruct (port_spec evs ls ans s1 [] W N Os U1) as (s2 & tr2 & E2 & U2 & F2 & K2).
  exists s2, (tr1 ++ tr2). unfold bbind. rewrite E1, E2. split; [reflexivity|]. split; [rewrite fetched_app, F1, F2; reflexivity|].
  split; [apply rx_careful_polite, rx_careful_app; assumption|]. apply holds_of_repr with (n := 512). apply U2.
Qed.
(** When there is no room, the byte that does not fit is lost and the rest stay in the port. *)
Theorem overrun arr s junk a0 evs ls ans l more : length arr = 512%nat -> offers junk a0 -> offers_all ls ans -> interrupts evs = length ls -> within 511 evs ls 0 -> offers l more ->
  let q := left_over evs ls [] in
  exists s1 tr1 s2 rest tr2, (in_turn (serial_init_steps arr) ;; port_run evs) s (a0 ++ ans) = BDone (taken_out evs ls []) s1 [] tr1 /\
    ext_interrupt s1 more = BDone tt s2 rest tr2 /\ ring_holds (dv_ring s2) (q ++ firstn (511 - length q) l) /\ fetched 0xA10017 tr2 = firstn (S (511 - length q)) l.
Proof.
  intros La O Os N W Ol q. destruct (init_in_use arr s junk a0 La O) as (s1 & tr1 & E1 & U1 & F1 & K1).
  apply (steady_init arr _ _ _ _ _ _ ans) in E1. cbn [Datatypes.app] in E1. destruct (port_spec evs ls ans s1 [] W N Os U1) as (s2 & tr2 & E2 & U2 & F2 & K2).
  destruct (interrupt_spec l more s2 q Ol U2) as (s3 & rest & tr3 & E3 & U3 & F3 & _ & K3).
  exists s2, (tr1 ++ tr2), s3, rest, tr3. unfold bbind. rewrite E1, E2. split; [reflexivity|]. split; [exact E3|]. split; [|exact F3]. apply holds_of_repr with (n := 512). apply U3.
Qed.
