(** From power-up: what is recognised, what is touched, what is chosen. *)
From Verif Require Import Base BaseLemmas RingBufModel RingBufSpec RingBufProofs SerialModel SynthModel SramModel BusModel BusSpec BusProofs BusSerialProofs CartModel CartSpec CartProofs.
Local Open Scope b_scope.

(** ** Start-up *)
Definition idle_at (b : bool) (s : drv) : Prop := dv_cart s = NoCart /\ dv_port s = 0 /\ dv_led s = b /\ ring_repr (dv_ring s) 512 [] /\ dv_cb s = true.
Lemma flush_stays b : kind False (idle_at b) in_port flush_rrdy (fun _ => True).
Proof.
  assert (R : can in_port 0xA10017) by (intros w; split; intros v a [= <-]; cbn; auto).
  assert (S : can in_port 0xA10019) by (intros w; split; intros v a [= <-]; cbn; auto).
  assert (C : forall s, idle_at b s -> dv_cart s = NoCart /\ dv_port s = 0) by (intros s (? & ? & ? & ? & ?); auto).
  apply kind_loop. apply (kind_bind _ _ _ _ _ (fun _ => True)); [exact (kind_serial_rready _ _ _ C S)|]. intros [|] _; [|apply kind_ret; exact Logic.I].
  apply (kind_bind _ _ _ _ _ (fun _ => True)); [exact (kind_serial_receive _ _ _ C R)|]. intros d _. apply kind_ret. exact Logic.I.
Qed.
Lemma port_start arr s ans : length arr = 512%nat -> dv_cart s = NoCart -> stays False (idle_at (dv_led s)) in_port (fun _ => True) (in_turn (serial_init_steps arr) s ans).
Proof.
  intros La Hc. unfold serial_init_steps. cbn [in_turn].
  match goal with |- stays _ _ _ _ (bbind _ (fun _ => bbind _ (fun _ => bbind _ (fun _ => bbind _ (fun _ => bbind _ (fun _ => bbind _ (fun _ => bbind _ (fun _ => bbind _ (fun _ => ?last)))))))) _ _) => set (rest := last) end.
  assert (K : kind False (idle_at (dv_led s)) in_port rest (fun _ => True)).
  { unfold rest. apply (kind_bind _ _ _ _ _ (fun _ => True)); [apply flush_stays|]. intros _ _. apply kind_ret. exact Logic.I. }
  clearbody rest. unfold bbind at 1 2 3 4 5 6 7 8. unfold bbind, bmod, bgets, mem_write, bemit, VDP_getReg, VDP_setReg. cbn -[PORT_SCTRL PORT_CTRL SERIAL_FLAGS fit zset].
  match goal with |- context [rest ?x ans] => assert (Hx : idle_at (dv_led s) x) by (split; [exact Hc|]; split; [reflexivity|]; split; [reflexivity|]; split; [apply ring_init_repr; lia|reflexivity]); specialize (K x ans Hx); destruct (rest x ans) as [u s2 r2 o2|o2|f] end;
    cbn [stays Datatypes.app] in *; try exact K.
  - destruct K as (K1 & K2 & _). split; [|auto]. repeat (constructor; [intros a E; first [discriminate E | injection E as <-; cbn; auto 6]|]). exact K1.
  - repeat (constructor; [intros a E; first [discriminate E | injection E as <-; cbn; auto 6]|]). exact K.
Qed.
Lemma names_x7_iff v : word v -> ((u8 (Z.shiftr v 8) =? IO_STATUS_HI_SD) || (u8 (Z.shiftr v 8) =? IO_STATUS_HI_SDHC)) = true <-> names_x7 v.
Proof.
  unfold word, names_x7, u8, IO_STATUS_HI_SD, IO_STATUS_HI_SDHC. intros Hv. rewrite Z.shiftr_div_pow2 by lia. change (2 ^ 8) with 256.
  rewrite (Z.mod_small (v / 256)) by (split; [apply Z.div_pos; lia|apply Z.div_lt_upper_bound; lia]). rewrite orb_true_iff, !Z.eqb_eq. tauto.
Qed.
Lemma names_pro_iff v : word v -> (Z.land v 0xFFF0 =? STAT_PRO_PRESENT) = true <-> names_pro v.
Proof.
  unfold word, names_pro. intros Hv. assert (E : Z.land v 0xFFF0 = 16 * (v / 16)).
  { change 0xFFF0 with (Z.shiftl (Z.ones 12) 4). apply Z.bits_inj'. intros n Hn. rewrite Z.land_spec.
    replace (16 * (v / 16)) with (Z.shiftl (Z.shiftr v 4) 4) by (rewrite Z.shiftl_mul_pow2, Z.shiftr_div_pow2 by lia; change (2 ^ 4) with 16; lia).
    rewrite !Z.shiftl_spec by lia. destruct (Z.lt_ge_cases n 4) as [L|L].
    - rewrite !(Z.testbit_neg_r _ (n - 4)) by lia. apply andb_false_r.
    - rewrite Z.shiftr_spec by lia. replace (n - 4 + 4) with n by lia. destruct (Z.lt_ge_cases n 16) as [L2|L2].
      + rewrite Z.ones_spec_low by lia. apply andb_true_r.
      + rewrite Z.ones_spec_high by lia. rewrite andb_false_r. symmetry. rewrite <- (Z.mod_small v (2 ^ 16)) by (change (2 ^ 16) with 65536; lia). apply Z.mod_pow2_bits_high. lia. }
  rewrite E, Z.eqb_eq. unfold STAT_PRO_PRESENT. lia.
Qed.
Lemma fit_word v : word (fit W16 v).
Proof. unfold word, fit, u16. apply Z.mod_pos_bound. lia. Qed.
Theorem recognised arr s ans x7 pro s1 rest tr : length arr = 512%nat -> power_up arr s ans = BDone (x7, pro) s1 rest tr ->
  exists a b port, word a /\ word b /\ tr = Rd W16 0xA130E4 a :: Rd W16 0xA130D4 b :: port /\ Forall in_port port /\
    (x7 = true <-> names_x7 a) /\ (pro = true <-> names_pro b) /\ idle_at (dv_led s) s1.
Proof.
  unfold power_up. intros La E. destruct ans as [|a [|b t]]; [discriminate E|discriminate E|].
  assert (P : stays False (idle_at (dv_led s)) in_port (fun _ => True) (in_turn (serial_init_steps arr) (set_taken false (set_cart NoCart s)) t)) by (apply (port_start arr (set_taken false (set_cart NoCart s))); [exact La|reflexivity]).
  unfold bus_sram_init, bus_load_presets, comm_everdrive_init, comm_everdrive_pro_init, mem_read, bbind, bmod, bgets, bret in E.
  cbn -[in_turn serial_init_steps u8 Z.shiftr Z.land fit] in E.
  destruct (in_turn (serial_init_steps arr) (set_taken false (set_cart NoCart s)) t) as [u s2 r2 o2|o2|f] eqn:R; try discriminate E.
  injection E as E1 E2 E3 E4 E5. cbn [stays] in P. destruct P as (P1 & P2 & _). subst s2.
  exists (fit W16 a), (fit W16 b), o2. split; [apply fit_word|]. split; [apply fit_word|]. split; [rewrite <- E5, app_nil_r; reflexivity|]. split; [exact P1|].
  split; [rewrite <- E1; apply names_x7_iff, fit_word|]. split; [rewrite <- E2; apply names_pro_iff, fit_word|exact P2].
Qed.

(** ** Only what was found *)
Section Found.
Context (x7 pro : bool).
Definition ported (s : drv) : Prop := dv_cart s = NoCart /\ dv_port s = 0 /\ (exists q, ring_repr (dv_ring s) 512 q) /\ dv_cb s = true.
Definition found_inv (s : drv) : Prop := ported s /\ (dv_led s = true -> x7 = true \/ pro = true).
Lemma ported_in s b r q : ported s -> ring_repr r 512 q -> ported (set_in b r s).
Proof. intros (H1 & H2 & _ & H4) R. split; [exact H1|]. split; [exact H2|]. split; [exists q; exact R|exact H4]. Qed.
Lemma found_can a : (forall e, address e = Some a -> only_found x7 pro e) -> can (only_found x7 pro) a.
Proof. intros H w. split; intros v; apply H; reflexivity. Qed.
Lemma found_run ops act : act_ok x7 pro (fun w => way_present x7 pro w = true) act ->
  kind (act = None /\ Exists is_write ops) found_inv (only_found x7 pro) (cart_run x7 pro ops act) (fun r => used x7 pro (fun w => way_present x7 pro w = true) act (fst r)).
Proof.
  assert (C : forall a, (In a port_registers \/ (x7 = true /\ In a x7_registers) \/ (pro = true /\ In a pro_registers) \/ ((x7 = true \/ pro = true) /\ a = light_register)) -> can (only_found x7 pro) a).
  { intros a H. apply found_can. intros e He b Hb. rewrite He in Hb. injection Hb as <-. exact H. }
  intros Ha. apply kind_cart_run.
  - intros s b (H1 & H3) (v & Hv). split; [exact H1|]. intros _. destruct (Hv _ eq_refl) as [H|[[H _]|[[H _]|[H _]]]]; auto.
    cbn in H. destruct H as [H|[H|[H|[H|[]]]]]; discriminate H.
  - intros s b r q (H1 & H3) R _. split; [exact (ported_in _ _ _ _ H1 R)|exact H3].
  - intros s ((H1 & H2 & H4 & H5) & H3). auto.
  - intros s ((H1 & H2 & H4 & H5) & H3). auto.
  - apply C. left. cbn; auto.
  - apply C. left. cbn; auto 6.
  - intros w Hw. destruct w; cbn [way_can way_present] in *; try exact Logic.I.
    + repeat split; apply C; cbn; auto 7.
    + repeat split; apply C; cbn; auto 8.
    + apply C. left. cbn; auto.
  - intros s ans (H1 & H3). rewrite tick_eq. destruct (dv_led s) eqn:L; cbn [stays].
    + split; [|split; [|exact Logic.I]]; [|split; [exact H1|discriminate]]. constructor; [|constructor]. intros a [= <-]. right. right. right. split; [exact (H3 eq_refl)|reflexivity].
    + split; [constructor|]. split; [|exact Logic.I]. split; [exact H1|]. rewrite L. discriminate.
  - exact Ha.
  - auto.
Qed.
End Found.
Lemma after_start arr s ans x7 pro s1 rest tr : length arr = 512%nat -> dv_led s = false -> power_up arr s ans = BDone (x7, pro) s1 rest tr -> found_inv x7 pro s1.
Proof.
  intros La L E. destruct (recognised _ _ _ _ _ _ _ _ La E) as (a & b & port & _ & _ & _ & _ & _ & _ & (I1 & I2 & I3 & I4 & I5)).
  split; [split; [exact I1|]; split; [exact I2|]; split; [eexists; exact I4|exact I5]|]. rewrite I3, L. discriminate.
Qed.
Theorem hands_off arr s ans x7 pro s1 rest tr ops : length arr = 512%nat -> dv_led s = false -> power_up arr s ans = BDone (x7, pro) s1 rest tr ->
  Forall (only_found x7 pro) (accesses (cart_run x7 pro ops None s1 rest)).
Proof.
  intros La L E. assert (K := found_run x7 pro ops None ltac:(intros w Hw; exact Hw) s1 rest (after_start _ _ _ _ _ _ _ _ La L E)).
  destruct (cart_run x7 pro ops None s1 rest); cbn [stays accesses] in *; [exact (proj1 K)|exact K|constructor].
Qed.
Theorem storage_idle arr s ans x7 pro s1 rest tr ops e a : length arr = 512%nat -> dv_led s = false -> power_up arr s ans = BDone (x7, pro) s1 rest tr ->
  In e (tr ++ accesses (cart_run x7 pro ops None s1 rest)) -> address e = Some a -> ~ storage_place a.
Proof.
  intros La L E He Ha Hs. apply in_app_or in He. destruct He as [He|He].
  - destruct (recognised _ _ _ _ _ _ _ _ La E) as (v & w & port & _ & _ & -> & Hp & _). unfold storage_place in Hs. destruct He as [<-|[<-|He]].
    + injection Ha as <-. lia.
    + injection Ha as <-. lia.
    + rewrite Forall_forall in Hp. specialize (Hp e He a Ha). cbn in Hp. lia.
  - assert (K := hands_off _ _ _ _ _ _ _ _ ops La L E). rewrite Forall_forall in K. specialize (K e He a Ha). unfold storage_place, light_register in *. cbn in K. lia.
Qed.

(** ** Only what is in use *)
Lemma used_run x7 pro w ops : kind False ported (only_used w) (cart_run x7 pro ops (Some w)) (fun r => used x7 pro (fun v => v = w) (Some w) (fst r)).
Proof.
  assert (C : forall a, (a = 0xA10019 \/ a = 0xA10017 \/ a = light_register \/
    match w with ViaX7 => In a x7_registers | ViaPro => In a pro_registers | ViaSerial => In a port_registers | ViaOther => False end) -> can (only_used w) a).
  { intros a H u. split; intros v b [= <-]; exact H. }
  apply kind_cart_run.
  - intros s b H _. exact H.
  - intros s b r q H R _. exact (ported_in _ _ _ _ H R).
  - intros s (H1 & H2 & H3 & H4). auto.
  - intros s (H1 & H2 & H3 & H4). auto.
  - apply C. auto.
  - apply C. auto.
  - intros v ->. destruct w; cbn [way_can]; try exact Logic.I.
    + repeat split; apply C; cbn; auto 7.
    + repeat split; apply C; cbn; auto 8.
    + apply C. cbn; auto 7.
  - intros s ans H. rewrite tick_eq. destruct (dv_led s); cbn [stays]; (split; [|split; [exact H|exact Logic.I]]).
    + constructor; [|constructor]. intros a [= <-]. auto.
    + constructor.
  - reflexivity.
  - discriminate.
Qed.
Theorem one_in_use arr s ans x7 pro s1 rest tr ops w d s2 rest2 tr2 more : length arr = 512%nat -> dv_led s = false -> power_up arr s ans = BDone (x7, pro) s1 rest tr ->
  cart_run x7 pro ops None s1 rest = BDone (Some w, d) s2 rest2 tr2 ->
  Forall (only_used w) (accesses (cart_run x7 pro more (Some w) s2 rest2)) /\
  (forall act d' s3 rest3 tr3, cart_run x7 pro more (Some w) s2 rest2 = BDone (act, d') s3 rest3 tr3 -> act = Some w) /\
  forall f, cart_run x7 pro more (Some w) s2 rest2 <> BFault f.
Proof.
  intros La L E R. assert (K := found_run x7 pro ops None ltac:(intros v Hv; exact Hv) s1 rest (after_start _ _ _ _ _ _ _ _ La L E)).
  rewrite R in K. cbn [stays] in K. destruct K as (_ & (J & _) & _).
  assert (U := used_run x7 pro w more s2 rest2 J). destruct (cart_run x7 pro more (Some w) s2 rest2) as [r s3 r3 o3|o3|f]; cbn [stays accesses] in *.
  - destruct U as (U1 & _ & U3). split; [exact U1|]. split; [|discriminate]. intros act d' s4 rest3 tr3 [= -> <- <- <-]. apply (proj2 U3). discriminate.
  - split; [exact U|]. split; discriminate.
  - destruct U.
Qed.
Lemma start_goes_on arr s ans f : length arr = 512%nat -> power_up arr s ans <> BFault f.
Proof.
  intros La E. unfold power_up in E. destruct ans as [|a [|b t]]; [discriminate E|discriminate E|].
  assert (P : stays False (idle_at (dv_led s)) in_port (fun _ => True) (in_turn (serial_init_steps arr) (set_taken false (set_cart NoCart s)) t)) by (apply (port_start arr (set_taken false (set_cart NoCart s))); [exact La|reflexivity]).
  unfold bus_sram_init, bus_load_presets, comm_everdrive_init, comm_everdrive_pro_init, mem_read, bbind, bmod, bgets, bret in E.
  cbn -[in_turn serial_init_steps u8 Z.shiftr Z.land fit] in E.
  destruct (in_turn (serial_init_steps arr) (set_taken false (set_cart NoCart s)) t) as [u s2 r2 o2|o2|f'] eqn:R; try discriminate E. exact P.
Qed.
Theorem runs_on arr s ans x7 pro s1 rest tr ops f : length arr = 512%nat -> dv_led s = false -> power_up arr s ans = BDone (x7, pro) s1 rest tr ->
  ~ Exists is_write ops -> cart_run x7 pro ops None s1 rest <> BFault f.
Proof.
  intros La L E Hw R. assert (K := found_run x7 pro ops None ltac:(intros v Hv; exact Hv) s1 rest (after_start _ _ _ _ _ _ _ _ La L E)).
  rewrite R in K. cbn [stays] in K. exact (Hw (proj2 K)).
Qed.

(** ** The choice *)
Lemma first_result o ops r x xs r' tr : ring_run (o :: ops) r = Done (x :: xs) r' tr -> exists r1 o1, ring_step o r = Done x r1 o1.
Proof.
  cbn [ring_run]. unfold bind, ret. destruct (ring_step o r) as [y r1 o1|f]; [|discriminate]. destruct (ring_run ops r1) as [ys r2 o2|f]; [|discriminate].
  intros [= -> _ _ _]. eauto.
Qed.
Lemma holds_ready r q : ring_holds r q -> ring_buf_can_read r = match q with [] => false | _ => true end.
Proof.
  intros (r' & E). assert (S : exists x r1 o1, ring_step RRead r = Done x r1 o1 /\ x = match q with [] => ResRead RB_EMPTY None | b :: _ => ResRead RB_OK (Some b) end).
  { destruct q; cbn [repeat length Datatypes.app map] in E; destruct (first_result _ _ _ _ _ _ _ E) as (r1 & o1 & H); eauto. }
  destruct S as (x & r1 & o1 & S & ->). cbn [ring_step] in S. unfold bind, ring_buf_read, bind, get, put, ret, rd in S. unfold ring_buf_can_read.
  destruct (rb_buf r) as [l|]; [|destruct q; discriminate S]. destruct (rb_size r <? 2); [destruct q; discriminate S|].
  destruct (rb_tail r =? rb_head r); cbn [negb]; [destruct q; [reflexivity|discriminate S]|]. destruct q; [|reflexivity]. destruct (zget l (rb_tail r)); discriminate S.
Qed.
Theorem chosen x7 pro other q s ans : (q <> [] -> dv_recv s = true) -> ring_holds (dv_ring s) q ->
  forall act d s' rest tr, cart_step x7 pro (KPoll other) None s ans = BDone (act, d) s' rest tr ->
  s' = s /\ d = [] /\ exists a b, word a /\ word b /\ (act, tr) = first_with_data x7 pro other q a b.
Proof.
  intros Hq Hr act d s' rest tr. assert (Es : (dv_recv s && ring_buf_can_read (dv_ring s))%bool = match q with [] => false | _ => true end).
  { rewrite (holds_ready _ _ Hr). destruct q; [apply andb_false_r|]. rewrite Hq by discriminate. reflexivity. }
  assert (Er : forall an, comm_serial_read_ready s an = BDone (match q with [] => false | _ => true end) s an []) by (intros an; unfold comm_serial_read_ready, bgets; rewrite Es; reflexivity).
  unfold cart_step, bus_read_ready, commTypes. cbn [scan_ways way_present way_ready].
  assert (Z0 : word 0) by (unfold word; lia).
  assert (End : forall an, (r <- comm_serial_read_ready ;; if r then bret (Some ViaSerial) else r0 <- bret other ;; if r0 then bret (Some ViaOther) else bret None) s an =
    BDone (match q with _ :: _ => Some ViaSerial | [] => if other then Some ViaOther else None end) s an []) by (intros an; unfold bbind; rewrite Er; destruct q, other; reflexivity).
  set (tail := r <- comm_serial_read_ready ;; if r then bret (Some ViaSerial) else r0 <- bret other ;; if r0 then bret (Some ViaOther) else bret None) in *. clearbody tail.
  unfold first_with_data. destruct x7, pro; cbn [andb]; intros E.
  - destruct ans as [|v t]; unfold bbind at 1 2 3 in E; rewrite x7_read_ready in E; [discriminate E|]. destruct (Z.testbit (fit W16 v) 2) eqn:Ev.
    + cbn in E. injection E as <- <- <- <- <-. split; [reflexivity|]. split; [reflexivity|]. exists (fit W16 v), 0. rewrite Ev. auto using fit_word.
    + unfold bbind at 1 in E. rewrite pro_read_ready in E. destruct t as [|u t]; [discriminate E|]. destruct (negb (Z.testbit (fit W16 u) 15)) eqn:Eu.
      * cbn in E. injection E as <- <- <- <- <-. split; [reflexivity|]. split; [reflexivity|]. exists (fit W16 v), (fit W16 u). rewrite Ev, Eu. auto using fit_word.
      * rewrite End in E. cbn in E. injection E as <- <- <- <- <-. split; [reflexivity|]. split; [reflexivity|]. exists (fit W16 v), (fit W16 u). rewrite Ev, Eu. destruct q; auto using fit_word.
  - destruct ans as [|v t]; unfold bbind at 1 2 3 in E; rewrite x7_read_ready in E; [discriminate E|]. destruct (Z.testbit (fit W16 v) 2) eqn:Ev.
    + cbn in E. injection E as <- <- <- <- <-. split; [reflexivity|]. split; [reflexivity|]. exists (fit W16 v), 0. rewrite Ev. auto using fit_word.
    + rewrite End in E. cbn in E. injection E as <- <- <- <- <-. split; [reflexivity|]. split; [reflexivity|]. exists (fit W16 v), 0. rewrite Ev. destruct q; auto using fit_word.
  - unfold bbind at 1 2 3 in E. rewrite pro_read_ready in E. destruct ans as [|u t]; [discriminate E|]. destruct (negb (Z.testbit (fit W16 u) 15)) eqn:Eu.
    + cbn in E. injection E as <- <- <- <- <-. split; [reflexivity|]. split; [reflexivity|]. exists 0, (fit W16 u). rewrite Eu. auto using fit_word.
    + rewrite End in E. cbn in E. injection E as <- <- <- <- <-. split; [reflexivity|]. split; [reflexivity|]. exists 0, (fit W16 u). rewrite Eu. destruct q; auto using fit_word.
  - unfold bbind at 1 2 in E. rewrite End in E. cbn in E. injection E as <- <- <- <- <-. split; [reflexivity|]. split; [reflexivity|]. exists 0, 0. destruct q; auto.
Qed.
