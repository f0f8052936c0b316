(** Saved memory on the bus. *)
From Verif Require Import Base BaseLemmas RingBufModel MidiModel RxModel SerialModel SynthModel SynthSpec CrcModel SramModel SramSpec SramProofs BusModel BusSpec BusProofs BusSerialProofs.
Local Open Scope b_scope.

(** ** Traces *)
Lemma honest_app base x : forall c y, honest base c (x ++ y) <-> honest base c x /\ honest base (cart_after base c x) y.
Proof. induction x as [|e x IH]; intros c y; cbn [Datatypes.app honest]; [cbn; tauto|]. rewrite IH. unfold cart_after. cbn [fold_left]. tauto. Qed.
Lemma legal_app base x : forall c y, legal base c (x ++ y) <-> legal base c x /\ legal base (cart_after base c x) y.
Proof. induction x as [|e x IH]; intros c y; cbn [Datatypes.app legal]; [cbn; tauto|]. rewrite IH. unfold cart_after. cbn [fold_left]. tauto. Qed.
Lemma cart_app base c x y : cart_after base c (x ++ y) = cart_after base (cart_after base c x) y.
Proof. apply fold_left_app. Qed.
Lemma vdp_app regs x y : vdp_after regs (x ++ y) = vdp_after (vdp_after regs x) y.
Proof. apply fold_left_app. Qed.
Lemma undisturbed_app r0 x : forall regs y, undisturbed_access r0 regs (x ++ y) <-> undisturbed_access r0 regs x /\ undisturbed_access r0 (vdp_after regs x) y.
Proof.
  induction x as [|e x IH]; intros regs y; cbn [Datatypes.app undisturbed_access]; [cbn; tauto|]. rewrite IH. change (e :: x) with ([e] ++ x). rewrite vdp_app. tauto.
Qed.

(** ** Simulation *)
Section Sim.
Context (base : Z) (regs0 : list Z).
Definition rel3 := drv -> cartridge -> sram -> Prop.
Definition sim {A} (R1 R2 : rel3) (m : B A) (m' : M sram A) : Prop :=
  steady m /\ forall s c r, R1 s c r -> forall a r' o, m' r = Done a r' o ->
  (forall ans b s' rest tr, m s ans = BDone b s' rest tr -> honest base c tr ->
     b = a /\ R2 s' (cart_after base c tr) r' /\ legal base c tr /\ dv_vdp s' = vdp_after (dv_vdp s) tr /\ undisturbed_access regs0 (dv_vdp s) tr) /\
  (exists ans s' tr, m s ans = BDone a s' [] tr /\ honest base c tr).
Lemma sim_bind {A C} (R1 R2 R3 : rel3) (m : B A) m' (k : A -> B C) k' : sim R1 R2 m m' -> (forall a, sim R2 R3 (k a) (k' a)) -> sim R1 R3 (bbind m k) (bind m' k').
Proof.
  intros [Sm Hm] Hk. split; [apply steady_bind; [exact Sm|intros a; apply Hk]|]. intros s c r HR a r' o E.
  unfold bind in E. destruct (m' r) as [x r1 o1|f] eqn:E1; [|discriminate]. destruct (k' x r1) as [y r2 o2|f] eqn:E2; [|discriminate]. injection E as -> -> _.
  destruct (Hm s c r HR x r1 o1 E1) as [F1 (ans1 & s1 & tr1 & X1 & H1)]. split.
  - intros ans b s' rest tr H Hh. apply bbind_inv in H as (x' & s2 & rest2 & t1 & t2 & Y1 & Y2 & ->). apply honest_app in Hh as [Hh1 Hh2].
    destruct (F1 _ _ _ _ _ Y1 Hh1) as (-> & HR2 & L1 & V1 & N1). destruct (proj2 (Hk x) _ _ _ HR2 _ _ _ E2) as [F2 _].
    destruct (F2 _ _ _ _ _ Y2 Hh2) as (-> & HR3 & L2 & V2 & N2). rewrite cart_app, vdp_app, <- V1. split; [reflexivity|]. split; [exact HR3|].
    split; [apply legal_app; auto|]. split; [exact V2|]. apply undisturbed_app. rewrite <- V1. auto.
  - destruct (F1 _ _ _ _ _ X1 H1) as (_ & HR2 & _ & _ & _). destruct (proj2 (Hk x) _ _ _ HR2 _ _ _ E2) as [_ (ans2 & s2 & tr2 & X2 & H2)].
    exists (ans1 ++ ans2), s2, (tr1 ++ tr2). unfold bbind. rewrite (Sm _ _ _ _ _ _ ans2 X1). cbn [Datatypes.app]. rewrite X2. split; [reflexivity|]. apply honest_app. auto.
Qed.
Lemma sim_ret {A} (R : rel3) (a : A) : sim R R (bret a) (ret a).
Proof.
  split; [apply steady_ret|]. intros s c r HR b r' o [= <- <- <-]. split.
  - intros ans b s' rest tr [= <- <- <- <-] _. cbn. auto.
  - exists [], s, []. cbn. auto.
Qed.
Lemma sim_gets {A} (R : rel3) (f : drv -> A) (g : sram -> A) : (forall s c r, R s c r -> f s = g r) -> sim R R (bgets f) (gets g).
Proof.
  intros Hf. split; [apply steady_gets|]. intros s c r HR b r' o [= <- <- <-]. split.
  - intros ans b s' rest tr [= <- <- <- <-] _. cbn. rewrite (Hf _ _ _ HR). auto.
  - exists [], s, []. rewrite <- (Hf _ _ _ HR). cbn. auto.
Qed.
(** A step that reads nothing and touches no byte. *)
Lemma sim_quiet (R1 R2 : rel3) (m : B unit) (m' : M sram unit) : steady m -> (forall s c r, R1 s c r -> forall r' o, m' r = Done tt r' o -> exists s' tr, (forall ans, m s ans = BDone tt s' ans tr) /\
    R2 s' (cart_after base c tr) r' /\ dv_vdp s' = vdp_after (dv_vdp s) tr /\ Forall (fun e => match e with Rd W8 _ _ | Wr W8 _ _ => False | _ => True end) tr) -> sim R1 R2 m m'.
Proof.
  intros Sm Hm. split; [exact Sm|]. intros s c r HR [] r' o E. destruct (Hm _ _ _ HR _ _ E) as (s1 & tr1 & E1 & HR2 & V & Q).
  assert (Hh : forall c, honest base c tr1). { clear - Q. induction Q as [|e l He Hl IH]; intros c; cbn; [exact Logic.I|]. split; [destruct e as [[|]| | | |]; easy|apply IH]. }
  assert (Hl : forall c, legal base c tr1). { clear - Q. induction Q as [|e l He Hl IH]; intros c; cbn; [exact Logic.I|]. split; [destruct e as [[|]|[|]| | |]; easy|apply IH]. }
  assert (Hu : forall g, undisturbed_access regs0 g tr1). { clear - Q. induction Q as [|e l He Hl IH]; intros c; cbn [undisturbed_access]; [exact Logic.I|]. split; [destruct e as [[|]|[|]| | |]; easy|apply IH]. }
  split.
  - intros ans [] s' rest tr H _. rewrite E1 in H. injection H as <- <- <-. auto.
  - exists [], s1, tr1. split; [apply E1|apply Hh].
Qed.
End Sim.

(** ** Bits *)
Lemma off_bit v k : 0 <= k < 8 -> Z.testbit (u8 (Z.land v (Z.lnot (2 ^ k)))) k = false.
Proof. intros Hk. unfold u8. change 256 with (2 ^ 8). rewrite Z.mod_pow2_bits_low, Z.land_spec, Z.lnot_spec, Z.pow2_bits_true by lia. apply andb_false_r. Qed.
Lemma on_bit v k : 0 <= k < 8 -> Z.testbit (u8 (Z.lor v (2 ^ k))) k = true.
Proof. intros Hk. unfold u8. change 256 with (2 ^ 8). rewrite Z.mod_pow2_bits_low, Z.lor_spec, Z.pow2_bits_true by lia. apply orb_true_r. Qed.
Lemma reg_same l n v : 0 <= n < Z.of_nat (length l) -> reg (zset l n v) n = v.
Proof. intros H. unfold reg. assert (E := zget_zset_same l n v H). unfold zget in E. destruct (n <? 0) eqn:N; [lia|]. apply nth_error_nth with (1 := E). Qed.
Lemma reg_other l n k v : 0 <= k -> n <> k -> reg (zset l n v) k = reg l k.
Proof.
  intros Hk H. unfold reg. assert (E := zget_zset_other l n k v H). unfold zget in E. destruct (k <? 0) eqn:N; [lia|].
  destruct (nth_error l (Z.to_nat k)) as [x|] eqn:X; [rewrite (nth_error_nth _ _ _ E), (nth_error_nth _ _ _ X); reflexivity|].
  rewrite !nth_overflow; [reflexivity| |]; apply nth_error_None; assumption.
Qed.
(** The VDP registers with the two interrupts off, and on. *)
Definition ints_off (l : list Z) : list Z := let a := zset l 0 (u8 (Z.land (nth 0 l 0) (Z.lnot 16))) in zset a 1 (u8 (Z.land (nth 1 a 0) (Z.lnot 32))).
Definition ints_on (l : list Z) : list Z := let a := zset l 0 (u8 (Z.lor (nth 0 l 0) 16)) in zset a 1 (u8 (Z.lor (nth 1 a 0) 32)).
Lemma bits_u8 v n : byte v -> 8 <= n -> Z.testbit v n = false.
Proof. intros B Hn. destruct (Z.eq_dec v 0) as [->|N]; [apply Z.bits_0|]. apply Z.bits_above_log2; [unfold byte in B; lia|]. unfold byte in B. apply Z.log2_lt_pow2; [lia|]. apply Z.lt_le_trans with (2 ^ 8); [lia|apply Z.pow_le_mono_r; lia]. Qed.
Lemma off_bits v k n : byte v -> 0 <= n -> n <> k -> 0 <= k -> Z.testbit (u8 (Z.land v (Z.lnot (2 ^ k)))) n = Z.testbit v n.
Proof.
  intros B Hn N Hk. unfold u8. change 256 with (2 ^ 8). destruct (Z.ltb_spec n 8) as [L|L].
  - rewrite Z.mod_pow2_bits_low, Z.land_spec, Z.lnot_spec, Z.pow2_bits_false by lia. apply andb_true_r.
  - rewrite Z.mod_pow2_bits_high by lia. symmetry. apply bits_u8; assumption.
Qed.
Lemma on_bits v k n : byte v -> 0 <= n -> n <> k -> 0 <= k -> Z.testbit (u8 (Z.lor v (2 ^ k))) n = Z.testbit v n.
Proof.
  intros B Hn N Hk. unfold u8. change 256 with (2 ^ 8). destruct (Z.ltb_spec n 8) as [L|L].
  - rewrite Z.mod_pow2_bits_low, Z.lor_spec, Z.pow2_bits_false by lia. apply orb_false_r.
  - rewrite Z.mod_pow2_bits_high by lia. symmetry. apply bits_u8; assumption.
Qed.
Lemma zset_byte l i v : Forall byte l -> byte v -> Forall byte (zset l i v).
Proof.
  intros Hl Hv. unfold zset. destruct (i <? 0); [exact Hl|]. generalize (Z.to_nat i). clear i. induction Hl as [|x l Hx Hl IH]; intros n; destruct n; cbn; constructor; auto.
Qed.
Lemma byte_u8 v : byte (u8 v).
Proof. unfold byte, u8. apply Z.mod_pos_bound. lia. Qed.
Lemma reg_byte l n : Forall byte l -> byte (reg l n).
Proof. intros H. unfold reg. destruct (nth_in_or_default (Z.to_nat n) l 0) as [I| ->]; [rewrite Forall_forall in H; apply H, I|unfold byte; lia]. Qed.
Lemma ints_off_spec l : (2 <= length l)%nat -> Forall byte l -> Z.testbit (reg (ints_off l) 0) 4 = false /\ Z.testbit (reg (ints_off l) 1) 5 = false /\
  like l (ints_off l) /\ length (ints_off l) = length l /\ Forall byte (ints_off l).
Proof.
  intros L B. unfold ints_off. cbv zeta. split; [rewrite reg_other, reg_same by lia; apply (off_bit _ 4); lia|].
  split; [rewrite reg_same by (rewrite zset_length; lia); apply (off_bit _ 5); lia|]. split; [|split; [rewrite !zset_length; reflexivity|apply zset_byte; [apply zset_byte; [exact B|]|]; apply byte_u8]].
  intros n b Hn Hb H0 H1. change (nth 1 ?x 0) with (reg x 1). change (nth 0 l 0) with (reg l 0). rewrite (reg_other l 0 1) by lia.
  destruct (Z.eq_dec n 1) as [->|N1]; [rewrite reg_same by (rewrite zset_length; lia); apply (off_bits _ 5); [apply reg_byte, B|exact Hb|intros ->; apply H1; auto|lia]|].
  rewrite reg_other by lia. destruct (Z.eq_dec n 0) as [->|N0]; [rewrite reg_same by lia; apply (off_bits _ 4); [apply reg_byte, B|exact Hb|intros ->; apply H0; auto|lia]|].
  rewrite reg_other by lia. reflexivity.
Qed.
Lemma ints_on_spec l : (2 <= length l)%nat -> Forall byte l -> Z.testbit (reg (ints_on l) 0) 4 = true /\ Z.testbit (reg (ints_on l) 1) 5 = true /\
  like l (ints_on l) /\ length (ints_on l) = length l /\ Forall byte (ints_on l).
Proof.
  intros L B. unfold ints_on. cbv zeta. split; [rewrite reg_other, reg_same by lia; apply (on_bit _ 4); lia|].
  split; [rewrite reg_same by (rewrite zset_length; lia); apply (on_bit _ 5); lia|]. split; [|split; [rewrite !zset_length; reflexivity|apply zset_byte; [apply zset_byte; [exact B|]|]; apply byte_u8]].
  intros n b Hn Hb H0 H1. change (nth 1 ?x 0) with (reg x 1). change (nth 0 l 0) with (reg l 0). rewrite (reg_other l 0 1) by lia.
  destruct (Z.eq_dec n 1) as [->|N1]; [rewrite reg_same by (rewrite zset_length; lia); apply (on_bits _ 5); [apply reg_byte, B|exact Hb|intros ->; apply H1; auto|lia]|].
  rewrite reg_other by lia. destruct (Z.eq_dec n 0) as [->|N0]; [rewrite reg_same by lia; apply (on_bits _ 4); [apply reg_byte, B|exact Hb|intros ->; apply H0; auto|lia]|].
  rewrite reg_other by lia. reflexivity.
Qed.
Lemma like_trans a b c : like a b -> like b c -> like a c.
Proof. intros H1 H2 n i Hn Hi X Y. rewrite H2, H1; auto. Qed.
Lemma like_reg a b n : like a b -> 2 <= n -> reg b n = reg a n.
Proof. intros H Hn. apply Z.bits_inj'. intros i Hi. apply H; lia. Qed.

(** ** The steps *)
Section Store.
Context (k : cart) (regs0 : list Z).
Let base := base_of k.
Definition saved_rel (s : drv) (c : cartridge) (r : sram) : Prop := same_store s c r /\ Forall byte (ct_mem c) /\ dv_cart s = k /\ k <> NoCart.
(** The registers are as at the start but for the two bits. *)
Definition vdp_like (l : list Z) : Prop := length l = 24%nat /\ Forall byte l /\ like regs0 l.
Definition idle (s : drv) (c : cartridge) (r : sram) : Prop := saved_rel s c r /\ tidy c /\ vdp_like (dv_vdp s).
Definition idle_on (s : drv) (c : cartridge) (r : sram) : Prop := idle s c r /\ Z.testbit (reg (dv_vdp s) 0) 4 = true /\ Z.testbit (reg (dv_vdp s) 1) 5 = true.
Definition mapped (w : bool) (s : drv) (c : cartridge) (r : sram) : Prop :=
  saved_rel s c r /\ ct_bank c = 31 /\ (w = true -> Z.testbit (ct_ctrl c) 13 = true) /\ vdp_like (dv_vdp s) /\ Z.testbit (reg (dv_vdp s) 0) 4 = false /\ Z.testbit (reg (dv_vdp s) 1) 5 = false.

Lemma has_base : k <> NoCart -> SRAM_BASE k = Some base.
Proof. unfold base. destruct k; congruence || reflexivity. Qed.
Lemma saved_at_base i : 0 <= i -> saved_at base (base + i * 2) = Some i.
Proof.
  intros H. unfold saved_at. replace (base + i * 2 - base) with (i * 2) by lia. rewrite Z.mod_mul, Z.div_mul by lia. replace (base <=? base + i * 2) with true by lia. reflexivity.
Qed.
Lemma byte_lt r i s c : saved_rel s c r -> forall x, zget (sr_mem r) i = Some x -> 0 <= i < Z.of_nat (length (ct_mem c)) /\ zget (ct_mem c) i = Some x /\ byte x.
Proof.
  intros ((_ & M & _) & B & _) x E. rewrite M in E. split; [exact (zget_Some _ _ _ E)|]. split; [exact E|]. unfold zget in E. destruct (i <? 0); [discriminate|].
  apply nth_error_In in E. rewrite Forall_forall in B. apply B, E.
Qed.
Lemma steady_with_base {A} (f : Z -> B A) : (forall b, steady (f b)) -> steady (with_base f).
Proof. intros H. apply steady_bind; [apply steady_gets|]. intros c. destruct (SRAM_BASE c); [apply H|intros s ans a s' rest tr more; discriminate]. Qed.

Lemma sim_write i v : byte v -> sim base regs0 (mapped true) (mapped true) (bus_write i v) (sram_write i v).
Proof.
  intros Hv. split; [apply steady_with_base; intros b; apply steady_emit|]. intros s c r (S & Bk & Wk & V & V0 & V1) [] r' o E.
  unfold sram_write, bind, get, rd, emit, modify in E. destruct (zget (sr_mem r) i) as [x|] eqn:X; [|discriminate]. cbn in E. injection E as <- <-.
  destruct (byte_lt _ _ _ _ S _ X) as (L & Xc & Bx). assert (Sv := S). destruct S as ((P & M & T & U) & Bm & K & NK).
  assert (E1 : forall ans, bus_write i v s ans = BDone tt s ans [Wr W8 (base + i * 2) v]).
  { intros ans. unfold bus_write, with_base, bbind, bgets. rewrite K, (has_base NK). unfold mem_write, bemit. rewrite fit_byte by exact Hv. reflexivity. }
  assert (C1 : cart_after base c [Wr W8 (base + i * 2) v] = mkCartridge (ct_ctrl c) (ct_bank c) (zset (ct_mem c) i v)).
  { unfold cart_after. cbn [fold_left cart_step]. rewrite saved_at_base, Bk, (Wk eq_refl) by lia. reflexivity. }
  split.
  - intros ans [] s' rest tr H _. rewrite E1 in H. injection H as <- <- <-. rewrite C1. split; [reflexivity|]. split; [|split; [|split; [reflexivity|]]].
    + split; [|auto]. split; [|split; [apply zset_byte; assumption|auto]]. repeat split; auto. cbn. rewrite M. reflexivity.
    + cbn [legal]. split; [|exact Logic.I]. split; [exact Bk|]. split; [apply Wk; reflexivity|]. exists i. split; [apply saved_at_base; lia|exact L].
    + cbn [undisturbed_access]. split; [|exact Logic.I]. destruct V as (_ & _ & V). split; [exact V0|split; [exact V1|apply like_reg; [exact V|lia]]].
  - exists [], s, [Wr W8 (base + i * 2) v]. split; [apply E1|cbn; auto].
Qed.
Lemma sim_read w i : sim base regs0 (mapped w) (mapped w) (bus_read i) (sram_read i).
Proof.
  split; [apply steady_with_base; intros b; apply steady_read|]. intros s c r (S & Bk & Wk & V & V0 & V1) a r' o E.
  unfold sram_read, bind, get, rd in E. destruct (zget (sr_mem r) i) as [x|] eqn:X; [|discriminate]. cbn in E. injection E as <- <- <-.
  destruct (byte_lt _ _ _ _ S _ X) as (L & Xc & Bx). assert (Sv := S). destruct S as ((P & M & T & U) & Bm & K & NK).
  assert (E1 : forall ans, bus_read i s ans = match ans with [] => BWaits [] | v :: t => BDone (u8 v) s t [Rd W8 (base + i * 2) (u8 v)] end).
  { intros ans. unfold bus_read, with_base, bbind, bgets. rewrite K, (has_base NK). unfold mem_read. destruct ans; reflexivity. }
  split.
  - intros ans b s' rest tr H Hh. rewrite E1 in H. destruct ans as [|v t]; [discriminate|]. injection H as <- <- <- <-. cbn [honest] in Hh. destruct Hh as [Hh _].
    split; [exact (Hh i x (saved_at_base i ltac:(lia)) Bk Xc)|]. split; [split; [exact Sv|auto]|]. split; [|split; [reflexivity|]].
    + cbn [legal]. split; [|exact Logic.I]. split; [exact Bk|]. exists i. split; [apply saved_at_base; lia|exact L].
    + cbn [undisturbed_access]. split; [|exact Logic.I]. destruct V as (_ & _ & V). split; [exact V0|split; [exact V1|apply like_reg; [exact V|lia]]].
  - exists [x], s, [Rd W8 (base + i * 2) x]. rewrite E1. unfold u8. rewrite (Z.mod_small x 256) by exact Bx. split; [reflexivity|]. cbn [honest]. split; [|exact Logic.I].
    intros j y Hj _ Hy. rewrite saved_at_base in Hj by lia. injection Hj as <-. congruence.
Qed.

Ltac steady_tac := repeat first [apply steady_mod|apply steady_gets|apply steady_emit|apply steady_ret|apply steady_with_base; intros|apply steady_bind; [|intros]|
  match goal with |- steady (bwhen ?b _) => destruct b; unfold bwhen end].
Lemma disable_ints s ans : SYS_disableInts s ans = BDone tt (set_vdp (ints_off (dv_vdp s)) s) ans
  [Vdp 0 (u8 (Z.land (nth 0 (dv_vdp s) 0) (Z.lnot 16))); Vdp 1 (u8 (Z.land (nth 1 (zset (dv_vdp s) 0 (u8 (Z.land (nth 0 (dv_vdp s) 0) (Z.lnot 16)))) 0) (Z.lnot 32)))].
Proof. reflexivity. Qed.
Lemma enable_ints s ans : SYS_enableInts s ans = BDone tt (set_vdp (ints_on (dv_vdp s)) s) ans
  [Vdp 0 (u8 (Z.lor (nth 0 (dv_vdp s) 0) 16)); Vdp 1 (u8 (Z.lor (nth 1 (zset (dv_vdp s) 0 (u8 (Z.lor (nth 0 (dv_vdp s) 0) 16))) 0) 32))].
Proof. reflexivity. Qed.
Lemma sim_enable w : sim base regs0 idle (mapped w) (bus_enable w) sram_enable.
Proof.
  apply sim_quiet; [unfold bus_enable, SYS_disableInts, VDP_getReg, VDP_setReg, ed_enable, mem_write; steady_tac|].
  intros s c r (S & [Tw Tb] & V) r' o E. rewrite enable_eq in E. injection E as <- _. destruct S as ((P & M & T & U) & Bm & K & NK).
  destruct V as (V & Vb & V11). destruct (ints_off_spec (dv_vdp s) ltac:(lia) Vb) as (O1 & O2 & O3 & O4 & O5).
  set (s' := set_taken (dv_bus s) (set_bus true (set_vdp (ints_off (dv_vdp s)) s))).
  exists s', ([Vdp 0 (u8 (Z.land (nth 0 (dv_vdp s) 0) (Z.lnot 16))); Vdp 1 (u8 (Z.land (nth 1 (zset (dv_vdp s) 0 (u8 (Z.land (nth 0 (dv_vdp s) 0) (Z.lnot 16)))) 0) (Z.lnot 32)))] ++
    (if dv_bus s then [] else [Z80Bus true]) ++ [Wr W16 0xA130F0 (if w then 0xA000 else 0x8000); Wr W16 0xA130F8 31]).
  split; [|split; [|split]].
  - intros ans. unfold s'. clear - K NK. rewrite <- K in NK. destruct s as [d1 d2 d3 d4 d5 ck d6 d7 d8 d9 bus]. cbn [dv_cart] in NK. destruct ck; [congruence| |]; destruct bus, w; reflexivity.
  - assert (C : cart_after base c ([Vdp 0 (u8 (Z.land (nth 0 (dv_vdp s) 0) (Z.lnot 16))); Vdp 1 (u8 (Z.land (nth 1 (zset (dv_vdp s) 0 (u8 (Z.land (nth 0 (dv_vdp s) 0) (Z.lnot 16)))) 0) (Z.lnot 32)))] ++
      (if dv_bus s then [] else [Z80Bus true]) ++ [Wr W16 0xA130F0 (if w then 0xA000 else 0x8000); Wr W16 0xA130F8 31]) = mkCartridge (if w then 0xA000 else 0x8000) 31 (ct_mem c)).
    { destruct (dv_bus s); reflexivity. }
    rewrite C. split; [|split; [reflexivity|split; [intros ->; reflexivity|]]].
    + split; [|split; [exact Bm|split; [exact K|exact NK]]]. split; [exact P|]. split; [exact M|]. split; [exact U|reflexivity].
    + split; [split; [cbn; lia|]|split; [exact O1|exact O2]]. split; [exact O5|apply like_trans with (1 := V11), O3].
  - rewrite vdp_app. destruct (dv_bus s); reflexivity.
  - apply Forall_app. split; [repeat constructor|]. apply Forall_app. split; [destruct (dv_bus s); repeat constructor|repeat constructor].
Qed.
Lemma sim_disable w : sim base regs0 (mapped w) idle_on bus_disable sram_disable.
Proof.
  apply sim_quiet; [unfold bus_disable, SYS_enableInts, VDP_getReg, VDP_setReg, ed_disable, mem_write; steady_tac|].
  intros s c r (S & Bk & Wk & V & V0 & V1) r' o E. destruct S as ((P & M & T & U) & Bm & K & NK).
  destruct V as (V & Vb & V11). destruct (ints_on_spec (dv_vdp s) ltac:(lia) Vb) as (O1 & O2 & O3 & O4 & O5).
  set (s1 := if dv_taken s then set_taken false (set_bus false s) else s).
  exists (set_vdp (ints_on (dv_vdp s)) s1), ([Wr W16 0xA130F0 0x8000; Wr W16 0xA130F8 4] ++ (if dv_taken s then [Z80Bus false] else []) ++
    [Vdp 0 (u8 (Z.lor (nth 0 (dv_vdp s) 0) 16)); Vdp 1 (u8 (Z.lor (nth 1 (zset (dv_vdp s) 0 (u8 (Z.lor (nth 0 (dv_vdp s) 0) 16))) 0) 32))]).
  assert (Ev : dv_vdp s1 = dv_vdp s) by (unfold s1; destruct (dv_taken s); reflexivity).
  split; [|split; [|split]].
  - intros ans. unfold s1. clear - K NK. rewrite <- K in NK. destruct s as [d1 d2 d3 d4 d5 ck tk d7 d8 d9 bus]. cbn [dv_cart] in NK. destruct ck; [congruence| |]; destruct tk; reflexivity.
  - assert (C : cart_after base c ([Wr W16 0xA130F0 0x8000; Wr W16 0xA130F8 4] ++ (if dv_taken s then [Z80Bus false] else []) ++
      [Vdp 0 (u8 (Z.lor (nth 0 (dv_vdp s) 0) 16)); Vdp 1 (u8 (Z.lor (nth 1 (zset (dv_vdp s) 0 (u8 (Z.lor (nth 0 (dv_vdp s) 0) 16))) 0) 32))]) = mkCartridge 0x8000 4 (ct_mem c)) by (destruct (dv_taken s); reflexivity).
    rewrite C. split; [|split; [exact O1|exact O2]]. split; [|split; [split; reflexivity|]].
    + split; [|split; [exact Bm|split; [unfold s1; destruct (dv_taken s); exact K|exact NK]]].
      unfold sram_disable, bind, gets in E. unfold s1. destruct (dv_taken s) eqn:D; rewrite T in E; cbn in E; injection E as <- _; (split; [exact P|]); (split; [exact M|]); cbn; rewrite ?D; auto.
    + split; [cbn; lia|]. split; [exact O5|apply like_trans with (1 := V11), O3].
  - rewrite !vdp_app. destruct (dv_taken s); reflexivity.
  - apply Forall_app. split; [repeat constructor|]. apply Forall_app. split; [destruct (dv_taken s); repeat constructor|repeat constructor].
Qed.
Lemma sim_write_bytes l : Forall byte l -> forall i, sim base regs0 (mapped true) (mapped true) (bus_write_bytes i l) (write_bytes i l).
Proof.
  induction 1 as [|b l Hb Hl IH]; intros i; cbn [bus_write_bytes write_bytes]; [apply sim_ret|].
  apply (sim_bind _ _ _ (mapped true)); [apply sim_write, Hb|intros _]. apply (sim_bind _ _ _ (mapped true)); [apply sim_read|intros _; apply IH].
Qed.
Lemma sim_read_bytes w n : forall i, sim base regs0 (mapped w) (mapped w) (bus_read_bytes i n) (read_bytes i n).
Proof.
  induction n as [|n IH]; intros i; cbn [bus_read_bytes read_bytes]; [apply sim_ret|].
  apply (sim_bind _ _ _ (mapped w)); [apply sim_read|intros b]. apply (sim_bind _ _ _ (mapped w)); [apply IH|intros t; apply sim_ret].
Qed.
Lemma sim_load_slot n : sim base regs0 (mapped false) (mapped false) (bus_load_slot n) (load_slot n).
Proof.
  unfold bus_load_slot, load_slot. cbv zeta. apply (sim_bind _ _ _ (mapped false)); [apply sim_read|intros hi]. apply (sim_bind _ _ _ (mapped false)); [apply sim_read|intros lo].
  destruct (negb _); [apply sim_ret|]. apply (sim_bind _ _ _ (mapped false)); [apply sim_read_bytes|intros slot]. destruct (negb _); apply sim_ret.
Qed.
Lemma sim_load_slots l : sim base regs0 (mapped false) (mapped false) (bus_load_slots l) (load_slots l).
Proof.
  induction l as [|n l IH]; cbn [bus_load_slots load_slots]; [apply sim_ret|].
  apply (sim_bind _ _ _ (mapped false)); [apply sim_load_slot|intros x]. apply (sim_bind _ _ _ (mapped false)); [apply IH|intros r; apply sim_ret].
Qed.
Lemma sim_weaken {A} b g (R1 R1' R2 R2' : rel3) (m : B A) m' : (forall s c r, R1' s c r -> R1 s c r) -> (forall s c r, R2 s c r -> R2' s c r) -> sim b g R1 R2 m m' -> sim b g R1' R2' m m'.
Proof.
  intros H1 H2 [Sm Hm]. split; [exact Sm|]. intros s c r HR a r' o E. destruct (Hm s c r (H1 _ _ _ HR) a r' o E) as [F X]. split; [|exact X].
  intros ans x s' rest tr E1 Hh. destruct (F _ _ _ _ _ E1 Hh) as (Q1 & Q2 & Q3). split; [exact Q1|]. split; [apply H2, Q2|exact Q3].
Qed.
(** The test for a cartridge. *)
Lemma sim_present {A} (R : rel3) (mb : cart -> B A) (mm : bool -> M sram A) : (forall c, steady (mb c)) -> sim base regs0 idle R (mb k) (mm true) ->
  sim base regs0 idle R (bbind (bgets dv_cart) mb) (bind (gets sr_present) mm).
Proof.
  intros Sm [_ Hm]. split; [apply steady_bind; [apply steady_gets|exact Sm]|]. intros s c r HR a r' o E.
  assert (P : dv_cart s = k /\ sr_present r = true). { destruct HR as (((P & _) & _ & K & NK) & _). rewrite K in P. split; [exact K|]. rewrite P. destruct k; congruence || reflexivity. }
  destruct P as [K P]. unfold bind, gets in E. rewrite P in E. destruct (mm true r) as [x r1 o1|f] eqn:E1; [|discriminate]. injection E as <- <- _.
  destruct (Hm s c r HR _ _ _ E1) as [F (ans & s' & tr & X & Hh)].
  assert (G : forall ans, bbind (bgets dv_cart) mb s ans = mb k s ans). { intros a0. unfold bbind, bgets. rewrite K. destruct (mb k s a0); reflexivity. }
  split; [intros a0 b s1 rest t H; rewrite G in H; exact (F a0 b s1 rest t H)|]. exists ans, s', tr. rewrite G. auto.
Qed.
Lemma steady_disable : steady bus_disable.
Proof. exact (proj1 (sim_disable true)). Qed.
Lemma sim_save n p : preset_ok p -> k <> NoCart -> sim base regs0 idle idle_on (bus_save_preset n p) (sram_save_preset n p).
Proof.
  intros Hp NK. unfold bus_save_preset, sram_save_preset.
  assert (G : sim base regs0 idle idle_on (bus_enable true ;; bus_write_bytes (slot_offset n) (slot_bytes p) ;; bus_disable)
    (bind sram_enable (fun _ => bind (write_bytes (slot_offset n) (slot_bytes p)) (fun _ => sram_disable)))).
  { apply (sim_bind _ _ _ (mapped true)); [apply sim_enable|intros _]. apply (sim_bind _ _ _ (mapped true)); [apply sim_write_bytes; apply slot_bytes_ok, Hp|intros _]. apply sim_disable. }
  apply sim_present; [intros c; destruct (is_present c); [exact (proj1 G)|apply steady_ret]|]. replace (is_present k) with true by (destruct k; congruence || reflexivity). exact G.
Qed.
Lemma sim_clear n : k <> NoCart -> sim base regs0 idle idle_on (bus_clear_preset n) (sram_clear_preset n).
Proof.
  intros NK. unfold bus_clear_preset, sram_clear_preset.
  assert (G : sim base regs0 idle idle_on (bus_enable true ;; bus_write (slot_offset n) 0 ;; bus_write (slot_offset n + 1) 0 ;; bus_disable)
    (bind sram_enable (fun _ => bind (sram_write (slot_offset n) 0) (fun _ => bind (sram_write (slot_offset n + 1) 0) (fun _ => sram_disable))))).
  { apply (sim_bind _ _ _ (mapped true)); [apply sim_enable|intros _]. apply (sim_bind _ _ _ (mapped true)); [apply sim_write; unfold byte; lia|intros _].
    apply (sim_bind _ _ _ (mapped true)); [apply sim_write; unfold byte; lia|intros _]. apply sim_disable. }
  apply sim_present; [intros c; destruct (is_present c); [exact (proj1 G)|apply steady_ret]|]. replace (is_present k) with true by (destruct k; congruence || reflexivity). exact G.
Qed.
Lemma sim_load : k <> NoCart -> sim base regs0 idle idle_on bus_load_presets sram_load_presets.
Proof.
  intros NK. unfold bus_load_presets, sram_load_presets.
  assert (G : sim base regs0 idle idle_on (bus_enable false ;; l <- bus_load_slots (zseq 0 128) ;; bus_disable ;; bret l)
    (bind sram_enable (fun _ => bind (load_slots (zseq 0 128)) (fun l => bind sram_disable (fun _ => ret l))))).
  { apply (sim_bind _ _ _ (mapped false)); [apply sim_enable|intros _]. apply (sim_bind _ _ _ (mapped false)); [apply sim_load_slots|intros l].
    apply (sim_bind _ _ _ idle_on); [apply sim_disable|intros _; apply sim_ret]. }
  apply (sim_present _ (fun c => if negb (is_present c) then bret (repeat None 128) else _) (fun b => if negb b then ret (repeat None 128) else _)).
  - intros c. destruct (is_present c); [exact (proj1 G)|apply steady_ret].
  - replace (is_present k) with true by (destruct k; congruence || reflexivity). exact G.
Qed.
Lemma sim_step op : k <> NoCart -> rop_ok op -> sim base regs0 idle idle_on (bus_step op) (sram_step op).
Proof. intros NK Ho. destruct op as [n p|n]; cbn [bus_step sram_step]; [apply sim_save; [apply Ho|exact NK]|apply sim_clear, NK]. Qed.
Lemma idle_on_idle s c r : idle_on s c r -> idle s c r.
Proof. intros [H _]. exact H. Qed.
Lemma sim_run ops : k <> NoCart -> Forall rop_ok ops -> sim base regs0 idle idle (bus_run ops) (sram_run ops).
Proof.
  intros NK. unfold bus_run, sram_run. induction 1 as [|op ops Ho Hops IH]; cbn [map in_turn runM]; [apply sim_ret|].
  apply (sim_bind _ _ _ idle); [|intros _; exact IH]. apply (sim_weaken _ _ idle idle idle_on idle); [auto|exact idle_on_idle|]. apply sim_step; assumption.
Qed.
Lemma sim_run_on ops : k <> NoCart -> Forall rop_ok ops -> sim base regs0 idle_on idle_on (bus_run ops) (sram_run ops).
Proof.
  intros NK. unfold bus_run, sram_run. induction 1 as [|op ops Ho Hops IH]; cbn [map in_turn runM]; [apply sim_ret|].
  apply (sim_bind _ _ _ idle_on); [|intros _; exact IH]. apply (sim_weaken _ _ idle idle_on idle_on idle_on); [exact idle_on_idle|auto|]. apply sim_step; assumption.
Qed.
Lemma sim_run_some op ops : k <> NoCart -> Forall rop_ok (op :: ops) -> sim base regs0 idle idle_on (bus_run (op :: ops)) (sram_run (op :: ops)).
Proof.
  intros NK H. apply Forall_cons_iff in H as [Ho Hops]. unfold bus_run, sram_run. cbn [map in_turn runM].
  apply (sim_bind _ _ _ idle_on); [apply sim_step; assumption|intros _; apply sim_run_on; assumption].
Qed.
End Store.

(** ** Histories *)
(** The store of SramModel that the bus shows. *)
Definition store_of (s : drv) (c : cartridge) : sram := mkSram (is_present (dv_cart s)) (ct_mem c) (dv_taken s) (dv_bus s).
Lemma idle_start s c : ready_cart s c -> idle (dv_cart s) (dv_vdp s) s c (store_of s c).
Proof. intros ([L B] & T & NK & Lv & Bv). split; [|split; [exact T|split; [exact Lv|split; [exact Bv|intros n b _ _ _ _; reflexivity]]]]. split; [repeat split|]. auto. Qed.
Lemma store_ok s c : ready_cart s c -> sram_ok (store_of s c) /\ sr_present (store_of s c) = true.
Proof. intros ([L B] & T & NK & _). split; [split; [exact L|exact B]|]. cbn. destruct (dv_cart s); congruence || reflexivity. Qed.
Lemma store_loads s c : ready_cart s c -> forall n, is_program n -> loads (store_of s c) n (slot_value (slot_at (store_of s c) n)).
Proof. intros H n Hn. destruct (store_ok s c H) as [Ok P]. apply (loads_iff _ _ _ Ok P Hn). reflexivity. Qed.
Lemma runs ops s c : ready_cart s c -> Forall rop_ok ops -> exists r o, sram_run ops (store_of s c) = Done tt r o /\
  forall n, is_program n -> loads r n (fold_left table_step ops (fun n => slot_value (slot_at (store_of s c) n)) n).
Proof. intros H Ho. destruct (store_ok s c H) as [Ok P]. exact (c18 ops _ _ Ok P Ho (store_loads s c H)). Qed.

Theorem bus_legal ops s c ans s' rest tr : ready_cart s c -> Forall rop_ok ops ->
  (bus_run ops ;; _ <- bus_load_presets ;; bret tt) s ans = BDone tt s' rest tr -> honest (base_of (dv_cart s)) c tr ->
  legal (base_of (dv_cart s)) c tr /\ tidy (cart_after (base_of (dv_cart s)) c tr) /\ undisturbed_access (dv_vdp s) (dv_vdp s) tr /\
  dv_vdp s' = vdp_after (dv_vdp s) tr /\ like (dv_vdp s) (dv_vdp s') /\ Z.testbit (reg (dv_vdp s') 0) 4 = true /\ Z.testbit (reg (dv_vdp s') 1) 5 = true.
Proof.
  intros H Ho E Hh. assert (NK : dv_cart s <> NoCart) by apply H. destruct (runs ops s c H Ho) as (r1 & o1 & E1 & Lo).
  destruct (Lo 0 ltac:(unfold is_program; lia)) as (l & r2 & o2 & E2 & _).
  assert (S : sim (base_of (dv_cart s)) (dv_vdp s) (idle (dv_cart s) (dv_vdp s)) (idle_on (dv_cart s) (dv_vdp s)) (bus_run ops ;; _ <- bus_load_presets ;; bret tt)
    (bind (sram_run ops) (fun _ => bind sram_load_presets (fun _ => ret tt)))).
  { apply (sim_bind _ _ _ (idle (dv_cart s) (dv_vdp s))); [apply sim_run; assumption|intros _]. apply (sim_bind _ _ _ (idle_on (dv_cart s) (dv_vdp s))); [apply sim_load, NK|intros l0; apply sim_ret]. }
  assert (E3 : bind (sram_run ops) (fun _ => bind sram_load_presets (fun _ => ret tt)) (store_of s c) = Done tt r2 (o1 ++ o2 ++ [])) by (unfold bind, ret; rewrite E1, E2; reflexivity).
  destruct (proj2 S s c _ (idle_start s c H) tt r2 _ E3) as [F _]. destruct (F _ _ _ _ _ E Hh) as (_ & ((_ & T & V) & B0 & B1) & L & Ev & U).
  split; [exact L|]. split; [exact T|]. split; [exact U|]. split; [exact Ev|]. destruct V as (_ & _ & V). auto.
Qed.
Theorem bus_possible ops s c : ready_cart s c -> Forall rop_ok ops -> exists ans l s' tr, (bus_run ops ;; bus_load_presets) s ans = BDone l s' [] tr /\ honest (base_of (dv_cart s)) c tr.
Proof.
  intros H Ho. assert (NK : dv_cart s <> NoCart) by apply H. destruct (runs ops s c H Ho) as (r1 & o1 & E1 & Lo).
  destruct (Lo 0 ltac:(unfold is_program; lia)) as (l & r2 & o2 & E2 & _).
  assert (S : sim (base_of (dv_cart s)) (dv_vdp s) (idle (dv_cart s) (dv_vdp s)) (idle_on (dv_cart s) (dv_vdp s)) (bus_run ops ;; bus_load_presets) (bind (sram_run ops) (fun _ => sram_load_presets))).
  { apply (sim_bind _ _ _ (idle (dv_cart s) (dv_vdp s))); [apply sim_run; assumption|intros _]. apply sim_load, NK. }
  assert (E3 : bind (sram_run ops) (fun _ => sram_load_presets) (store_of s c) = Done l r2 (o1 ++ o2)) by (unfold bind; rewrite E1, E2; reflexivity).
  destruct (proj2 S s c _ (idle_start s c H) l r2 _ E3) as [_ (ans & s' & tr & X & Hh)]. exists ans, l, s', tr. auto.
Qed.
Lemma bus_loads ops s c ans l s' rest tr : ready_cart s c -> Forall rop_ok ops -> (bus_run ops ;; bus_load_presets) s ans = BDone l s' rest tr -> honest (base_of (dv_cart s)) c tr ->
  forall n, is_program n -> zget l n = Some (fold_left table_step ops (fun n => slot_value (slot_at (store_of s c) n)) n).
Proof.
  intros H Ho E Hh n Hn. assert (NK : dv_cart s <> NoCart) by apply H. destruct (runs ops s c H Ho) as (r1 & o1 & E1 & Lo).
  destruct (Lo n Hn) as (l2 & r2 & o2 & E2 & Hl).
  assert (S : sim (base_of (dv_cart s)) (dv_vdp s) (idle (dv_cart s) (dv_vdp s)) (idle_on (dv_cart s) (dv_vdp s)) (bus_run ops ;; bus_load_presets) (bind (sram_run ops) (fun _ => sram_load_presets))).
  { apply (sim_bind _ _ _ (idle (dv_cart s) (dv_vdp s))); [apply sim_run; assumption|intros _]. apply sim_load, NK. }
  assert (E3 : bind (sram_run ops) (fun _ => sram_load_presets) (store_of s c) = Done l2 r2 (o1 ++ o2)) by (unfold bind; rewrite E1, E2; reflexivity).
  destruct (proj2 S s c _ (idle_start s c H) l2 r2 _ E3) as [F _]. destruct (F _ _ _ _ _ E Hh) as (-> & _). exact Hl.
Qed.
Theorem bus_map ops s c ans0 l0 s0 rest0 tr0 ans l s' rest tr : ready_cart s c -> Forall rop_ok ops ->
  bus_load_presets s ans0 = BDone l0 s0 rest0 tr0 -> honest (base_of (dv_cart s)) c tr0 ->
  (bus_run ops ;; bus_load_presets) s ans = BDone l s' rest tr -> honest (base_of (dv_cart s)) c tr ->
  forall n, is_program n -> zget l n = Some (fold_left table_step ops (fun k => nth (Z.to_nat k) l0 None) n).
Proof.
  intros H Ho E0 H0 E Hh n Hn. rewrite (bus_loads ops s c ans l s' rest tr H Ho E Hh n Hn). f_equal.
  assert (E0' : (bus_run [] ;; bus_load_presets) s ans0 = BDone l0 s0 rest0 tr0) by (rewrite (bbind_done _ _ _ _ _ _ _ _ (eq_refl : bus_run [] s ans0 = BDone tt s ans0 [])), E0; reflexivity).
  assert (G : forall k, is_program k -> slot_value (slot_at (store_of s c) k) = nth (Z.to_nat k) l0 None).
  { intros k Hk. assert (X := bus_loads [] s c _ _ _ _ _ H (Forall_nil _) E0' H0 k Hk). cbn [fold_left] in X. unfold zget in X. destruct (k <? 0) eqn:D; [discriminate|]. symmetry. apply nth_error_nth with (1 := X). }
  clear - G Hn. set (t1 := fun n => slot_value _). set (t2 := fun k => nth _ _ _).
  assert (G' : forall k, is_program k -> t1 k = t2 k) by exact G. clearbody t1 t2. clear G. revert t1 t2 G'. induction ops as [|op ops IH]; intros t1 t2 G; [apply G, Hn|].
  cbn [fold_left]. apply IH. intros k Hk. destruct op; cbn; destruct (k =? _); auto.
Qed.
(** Without a cartridge nothing happens. *)
Theorem bus_absent ops s ans : dv_cart s = NoCart -> (bus_run ops ;; bus_load_presets) s ans = BDone (repeat None 128) s ans [].
Proof.
  intros K. assert (E : forall op, bus_step op s ans = BDone tt s ans []) by (intros [n p|n]; cbn [bus_step]; unfold bus_save_preset, bus_clear_preset, bbind, bgets; rewrite K; reflexivity).
  assert (R : bus_run ops s ans = BDone tt s ans []).
  { unfold bus_run. induction ops as [|op ops IH]; [reflexivity|]. cbn [map in_turn]. rewrite (bbind_done _ _ _ _ _ _ _ _ (E op)), IH. reflexivity. }
  rewrite (bbind_done _ _ _ _ _ _ _ _ R). unfold bus_load_presets, bbind, bgets. rewrite K. reflexivity.
Qed.
(** The registers are restored if both interrupts were on. *)
Theorem bus_restored ops s c ans s' rest tr : ready_cart s c -> Forall rop_ok ops -> Z.testbit (reg (dv_vdp s) 0) 4 = true -> Z.testbit (reg (dv_vdp s) 1) 5 = true ->
  (bus_run ops ;; _ <- bus_load_presets ;; bret tt) s ans = BDone tt s' rest tr -> honest (base_of (dv_cart s)) c tr -> forall n, 0 <= n -> reg (dv_vdp s') n = reg (dv_vdp s) n.
Proof.
  intros H Ho B0 B1 E Hh n Hn. destruct (bus_legal ops s c ans s' rest tr H Ho E Hh) as (_ & _ & _ & _ & L & C0 & C1).
  apply Z.bits_inj'. intros i Hi. destruct (Z.eq_dec n 0) as [->|N0]; [destruct (Z.eq_dec i 4) as [->|I]; [congruence|apply L; lia]|].
  destruct (Z.eq_dec n 1) as [->|N1]; [destruct (Z.eq_dec i 5) as [->|I]; [congruence|apply L; lia]|apply L; lia].
Qed.
