(** Sending, reading from a cartridge and its light. *)
From Verif Require Import Base BaseLemmas RingBufModel MidiModel RxModel SerialModel SynthModel SramModel BusModel BusSpec.
Local Open Scope b_scope.

(** ** Programs *)
Lemma bbind_done {A C} (m : B A) (k : A -> B C) s ans a s1 r1 o1 : m s ans = BDone a s1 r1 o1 ->
  bbind m k s ans = match k a s1 r1 with BFault f => BFault f | BWaits o2 => BWaits (o1 ++ o2) | BDone b s2 r2 o2 => BDone b s2 r2 (o1 ++ o2) end.
Proof. intros E. unfold bbind. rewrite E. reflexivity. Qed.
Lemma bbind_waits {A C} (m : B A) (k : A -> B C) s ans o : m s ans = BWaits o -> bbind m k s ans = BWaits o.
Proof. intros E. unfold bbind. rewrite E. reflexivity. Qed.
Lemma bbind_inv {A C} (m : B A) (k : A -> B C) s ans b s2 r2 o : bbind m k s ans = BDone b s2 r2 o ->
  exists a s1 r1 o1 o2, m s ans = BDone a s1 r1 o1 /\ k a s1 r1 = BDone b s2 r2 o2 /\ o = o1 ++ o2.
Proof.
  unfold bbind. destruct (m s ans) as [a s1 r1 o1|o1|f]; try discriminate. destruct (k a s1 r1) as [c s3 r3 o3|o3|f] eqn:E; try discriminate.
  intros [= <- <- <- <-]. exists a, s1, r1, o1, o3. auto.
Qed.

Lemma land_bit v k : 0 <= k -> Z.land v (2 ^ k) = if Z.testbit v k then 2 ^ k else 0.
Proof.
  intros Hk. apply Z.bits_inj'. intros n Hn. rewrite Z.land_spec, Z.pow2_bits_eqb by lia. destruct (Z.eqb_spec k n) as [->|N].
  - destruct (Z.testbit v n); [rewrite Z.pow2_bits_true by lia; reflexivity|rewrite Z.bits_0; reflexivity].
  - rewrite andb_false_r. destruct (Z.testbit v k); [rewrite Z.pow2_bits_eqb, (proj2 (Z.eqb_neq k n) N) by lia; reflexivity|rewrite Z.bits_0; reflexivity].
Qed.

(** ** Polling *)
Section Poll.
Context (s : drv) (ready : B bool) (w : width) (st : Z) (f : Z -> bool).
Context (Hr : forall ans, ready s ans = match ans with [] => BWaits [] | v :: t => BDone (f (fit w v)) s t [Rd w st (fit w v)] end).
Let rd v := Rd w st (fit w v).
Lemma polls ans : (exists skip x rest, ans = skip ++ x :: rest /\ Forall (fun v => f (fit w v) = false) skip /\ f (fit w x) = true /\
    wait_for ready s ans = BDone tt s rest (map rd (skip ++ [x]))) \/
  (Forall (fun v => f (fit w v) = false) ans /\ wait_for ready s ans = BWaits (map rd ans)).
Proof.
  unfold wait_for, loop. assert (G : forall n, (length ans < n)%nat -> (exists skip x rest, ans = skip ++ x :: rest /\ Forall (fun v => f (fit w v) = false) skip /\ f (fit w x) = true /\
    rounds n (r <- ready ;; bret (negb r)) s ans = BDone tt s rest (map rd (skip ++ [x]))) \/
    (Forall (fun v => f (fit w v) = false) ans /\ rounds n (r <- ready ;; bret (negb r)) s ans = BWaits (map rd ans))); [|apply G; lia].
  induction ans as [|v t IH]; intros n L; destruct n as [|n]; cbn [length] in L; try lia.
  - right. split; [constructor|]. cbn [rounds]. unfold bbind. rewrite Hr. reflexivity.
  - destruct (f (fit w v)) eqn:F.
    + left. exists [], v, t. split; [reflexivity|]. split; [constructor|]. split; [exact F|]. cbn [rounds]. unfold bbind. rewrite Hr, F. reflexivity.
    + cbn [rounds]. assert (E : (r <- ready ;; bret (negb r)) s (v :: t) = BDone true s t [rd v]) by (unfold bbind; rewrite Hr, F; reflexivity).
      rewrite (bbind_done _ _ _ _ _ _ _ _ E). destruct (IH n ltac:(lia)) as [(skip & x & rest & -> & Hs & Hx & Er)|(Hs & Er)]; rewrite Er.
      * left. exists (v :: skip), x, rest. split; [reflexivity|]. split; [constructor; assumption|]. split; [exact Hx|reflexivity].
      * right. split; [constructor; assumption|reflexivity].
Qed.
Definition frees (ans : list Z) : nat := length (filter (fun v => f (fit w v)) ans).
Lemma frees_skip skip x rest : Forall (fun v => f (fit w v) = false) skip -> f (fit w x) = true -> frees (skip ++ x :: rest) = S (frees rest).
Proof.
  intros Hs Hx. unfold frees. induction Hs as [|v skip Hv Hs IH]; cbn [Datatypes.app filter]; [rewrite Hx; reflexivity|rewrite Hv; exact IH].
Qed.
Lemma frees_none ans : Forall (fun v => f (fit w v) = false) ans -> frees ans = 0%nat.
Proof. unfold frees. induction 1 as [|v ans Hv Hs IH]; cbn [filter]; [reflexivity|rewrite Hv; exact IH]. Qed.
End Poll.

(** ** Sending *)
(** [polite], read from the front. *)
Fixpoint careful (t : transport) (ok : bool) (tr : list bus) : Prop :=
  match tr with
  | [] => True
  | Wr _ a _ :: l => (a = tx_reg t -> ok = true) /\ careful t false l
  | Rd _ _ v :: l => careful t (tx_free t v) l
  | _ :: l => careful t false l
  end.
Lemma careful_polite t tr : only t tr -> careful t false tr -> polite t tr.
Proof.
  intros Ho Hc pre w v post E.
  assert (G : forall l ok pre, l = pre ++ Wr w (tx_reg t) v :: post -> only t l -> careful t ok l ->
    (pre = [] /\ ok = true) \/ exists pre' x, pre = pre' ++ [Rd (tx_width t) (tx_status t) x] /\ tx_free t x = true).
  { clear. induction l as [|e l IH]; intros ok pre E Ho Hc; [destruct pre; discriminate|]. destruct pre as [|e' pre].
    - left. injection E as -> ->. cbn in Hc. split; [reflexivity|]. apply Hc. reflexivity.
    - injection E as <- E. right. apply Forall_cons_iff in Ho as [(x & He) Ho]. destruct He as [-> | ->].
      + destruct (IH (tx_free t x) pre E Ho Hc) as [(-> & F)|(pre' & y & -> & F)]; [exists [], x; auto|exists (Rd (tx_width t) (tx_status t) x :: pre'), y; auto].
      + destruct Hc as [_ Hc]. destruct (IH false pre E Ho Hc) as [(_ & F)|(pre' & y & -> & F)]; [discriminate F|exists (Wr (tx_width t) (tx_reg t) x :: pre'), y; auto]. }
  destruct (G tr false pre E Ho Hc) as [(_ & F)|H]; [discriminate F|exact H].
Qed.

Section Send.
Context (t : transport) (s : drv) (ready : B bool) (put : Z -> B unit).
Context (Hr : forall ans, ready s ans = match ans with [] => BWaits [] | v :: t' => BDone (tx_free t (fit (tx_width t) v)) s t' [Rd (tx_width t) (tx_status t) (fit (tx_width t) v)] end).
Context (Hp : forall d ans, byte d -> put d s ans = BDone tt s ans [Wr (tx_width t) (tx_reg t) d]).
Fixpoint write_all (data : list Z) : B unit := match data with [] => bret tt | d :: l => wait_for ready ;; put d ;; write_all l end.
Let rd v := Rd (tx_width t) (tx_status t) (fit (tx_width t) v).
Let free := frees (tx_width t) (tx_free t).
Lemma written_rd l : written (tx_reg t) (map rd l) = [].
Proof. induction l; auto. Qed.
Lemma only_rd l : only t (map rd l).
Proof. apply Forall_forall. intros e (v & <- & _)%in_map_iff. exists (fit (tx_width t) v). auto. Qed.
Lemma careful_waits l ok : careful t ok (map rd l).
Proof. revert ok. induction l as [|v l IH]; intros ok; [exact Logic.I|apply IH]. Qed.
Lemma careful_rd skip x ok tr : tx_free t (fit (tx_width t) x) = true -> careful t true tr -> careful t ok (map rd (skip ++ [x]) ++ tr).
Proof.
  intros Hx Ht. revert ok. induction skip as [|v skip IH]; intros ok; cbn [Datatypes.app map careful]; [cbn; rewrite Hx; exact Ht|apply IH].
Qed.
Lemma written_app a x y : written a (x ++ y) = written a x ++ written a y.
Proof. apply flat_map_app. Qed.
Lemma write_all_spec data : Forall byte data -> forall ans,
  (exists rest tr, write_all data s ans = BDone tt s rest tr /\ written (tx_reg t) tr = data /\ only t tr /\ careful t false tr /\ (length data <= free ans)%nat) \/
  (exists tr more, write_all data s ans = BWaits tr /\ data = written (tx_reg t) tr ++ more /\ more <> [] /\ only t tr /\ careful t false tr /\ (free ans < length data)%nat).
Proof.
  induction 1 as [|d data Hd Hf IH]; intros ans.
  - left. exists ans, []. repeat split; try constructor. cbn. lia.
  - cbn [write_all]. destruct (polls s ready _ _ _ Hr ans) as [(skip & x & rest & -> & Hs & Hx & E)|(Hs & E)].
    + rewrite (bbind_done _ _ _ _ _ _ _ _ E), (bbind_done _ _ _ _ _ _ _ _ (Hp d rest Hd)). unfold free. rewrite (frees_skip _ _ _ _ _ Hs Hx).
      destruct (IH rest) as [(rest' & tr & -> & W & O & K & L)|(tr & more & -> & W & Hm & O & K & L)].
      * left. eexists rest', _. split; [reflexivity|]. rewrite !written_app. fold rd. rewrite written_rd. cbn [Datatypes.app written flat_map]. rewrite Z.eqb_refl. fold (written (tx_reg t) tr).
        cbn [Datatypes.app]. split; [f_equal; exact W|]. split; [apply Forall_app; split; [apply only_rd|constructor; [eexists; right; reflexivity|exact O]]|].
        split; [apply careful_rd; [exact Hx|]; cbn; auto|]. cbn [length]. unfold free in L. lia.
      * right. eexists _, more. split; [reflexivity|]. rewrite !written_app. fold rd. rewrite written_rd. cbn [Datatypes.app written flat_map]. rewrite Z.eqb_refl. fold (written (tx_reg t) tr).
        cbn [Datatypes.app]. split; [f_equal; exact W|]. split; [exact Hm|]. split; [apply Forall_app; split; [apply only_rd|constructor; [eexists; right; reflexivity|exact O]]|].
        split; [apply careful_rd; [exact Hx|]; cbn; auto|]. cbn [length]. unfold free in L. lia.
    + right. rewrite (bbind_waits _ _ _ _ _ E). exists (map rd ans), (d :: data). split; [reflexivity|]. rewrite written_rd. split; [reflexivity|]. split; [discriminate|].
      split; [apply only_rd|]. split; [apply careful_waits|]. unfold free. rewrite (frees_none _ _ _ Hs). cbn. lia.
Qed.
Lemma comm_write_spec data ans : Forall byte data ->
  (exists rest tr, (wait_for ready ;; write_all data) s ans = BDone tt s rest tr /\ written (tx_reg t) tr = data /\ only t tr /\ polite t tr /\ (length data < free ans)%nat) \/
  (exists tr more, (wait_for ready ;; write_all data) s ans = BWaits tr /\ data = written (tx_reg t) tr ++ more /\ only t tr /\ polite t tr /\ (free ans <= length data)%nat).
Proof.
  intros Hd. destruct (polls s ready _ _ _ Hr ans) as [(skip & x & rest & -> & Hs & Hx & E)|(Hs & E)].
  - rewrite (bbind_done _ _ _ _ _ _ _ _ E). unfold free. rewrite (frees_skip _ _ _ _ _ Hs Hx). fold rd.
    assert (K : forall tr, careful t false tr -> careful t true tr) by (intros [|[] tr] H; cbn in *; intuition discriminate || auto).
    destruct (write_all_spec data Hd rest) as [(rest' & tr & -> & W & O & C & L)|(tr & more & -> & W & Hm & O & C & L)].
    + left. eexists rest', _. split; [reflexivity|]. rewrite written_app, written_rd. split; [exact W|].
      assert (O' : only t (map rd (skip ++ [x]) ++ tr)) by (apply Forall_app; split; [apply only_rd|exact O]).
      split; [exact O'|]. split; [apply careful_polite; [exact O'|]; apply careful_rd; auto|]. unfold free in L. lia.
    + right. eexists _, more. split; [reflexivity|]. rewrite written_app, written_rd. split; [exact W|].
      assert (O' : only t (map rd (skip ++ [x]) ++ tr)) by (apply Forall_app; split; [apply only_rd|exact O]).
      split; [exact O'|]. split; [apply careful_polite; [exact O'|]; apply careful_rd; auto|]. unfold free in L. lia.
  - right. rewrite (bbind_waits _ _ _ _ _ E). exists (map rd ans), data. split; [reflexivity|]. rewrite written_rd. split; [reflexivity|].
    split; [apply only_rd|]. split; [apply careful_polite; [apply only_rd|apply careful_waits]|]. unfold free. rewrite (frees_none _ _ _ Hs). lia.
Qed.
End Send.

Lemma serial_ready s : dv_port s = 0 -> forall ans, serial_readyToSend s ans =
  match ans with [] => BWaits [] | v :: t => BDone (tx_free TSerial (fit W8 v)) s t [Rd W8 0xA10019 (fit W8 v)] end.
Proof.
  intros P [|v t]; unfold serial_readyToSend, bbind, bgets, mem_read, bret; [reflexivity|]. rewrite P. cbn [Datatypes.app]. f_equal.
  change SCTRL_TFUL with (2 ^ 0). rewrite land_bit by lia. unfold tx_free. destruct (Z.testbit (fit W8 v) 0); reflexivity.
Qed.
Lemma x7_ready s ans : comm_everdrive_write_ready s ans =
  match ans with [] => BWaits [] | v :: t => BDone (tx_free TX7 (fit W16 v)) s t [Rd W16 0xA130E4 (fit W16 v)] end.
Proof.
  destruct ans as [|v t]; [reflexivity|]. unfold comm_everdrive_write_ready, bbind, mem_read, bret. cbn [Datatypes.app]. f_equal.
  change STE_USB_WR_RDY with (2 ^ 1). rewrite land_bit by lia. unfold tx_free. destruct (Z.testbit (fit W16 v) 1); reflexivity.
Qed.
Lemma fit_byte w d : byte d -> fit w d = d.
Proof. unfold byte. intros H. destruct w; cbn; unfold u8, u16; rewrite Z.mod_small; lia. Qed.

Theorem sends t data s ans : t <> TPro -> dv_port s = 0 -> Forall byte data ->
  match comm_write t data s ans with
  | BDone _ _ _ tr => written (tx_reg t) tr = data /\ only t tr /\ polite t tr
  | BWaits tr => (exists more, data = written (tx_reg t) tr ++ more) /\ only t tr /\ polite t tr
  | BFault _ => False
  end /\
  ((exists s' rest tr, comm_write t data s ans = BDone tt s' rest tr) <-> (length data < length (filter (fun v => tx_free t (fit (tx_width t) v)) ans))%nat).
Proof.
  intros Ht P Hd.
  assert (G : (exists rest tr, comm_write t data s ans = BDone tt s rest tr /\ written (tx_reg t) tr = data /\ only t tr /\ polite t tr /\ (length data < frees (tx_width t) (tx_free t) ans)%nat) \/
    (exists tr more, comm_write t data s ans = BWaits tr /\ data = written (tx_reg t) tr ++ more /\ only t tr /\ polite t tr /\ (frees (tx_width t) (tx_free t) ans <= length data)%nat)).
  { destruct t; try congruence.
    - apply (comm_write_spec TSerial s comm_serial_write_ready serial_send); [exact (serial_ready s P)| |exact Hd].
      intros d a B. unfold serial_send, bbind, bgets, mem_write, bemit. rewrite P, fit_byte by exact B. reflexivity.
    - apply (comm_write_spec TX7 s comm_everdrive_write_ready (mem_write W16 REG_USB)); [exact (x7_ready s)| |exact Hd].
      intros d a B. unfold mem_write, bemit. rewrite fit_byte by exact B. reflexivity. }
  destruct G as [(rest & tr & -> & W & O & K & L)|(tr & more & -> & W & O & K & L)].
  - split; [auto|]. unfold frees in L. split; [intros _; exact L|intros _; eauto].
  - split; [eauto|]. unfold frees in L. split; [intros (a & b & c & X); discriminate X|intros X; lia].
Qed.

(** ** EverDrive PRO *)
Lemma fifo_wr_eq data s ans : Forall byte data -> bi_fifo_wr data s ans = BDone tt s ans (map (Wr W16 0xA130D0) data).
Proof.
  induction 1 as [|d data Hd Hf IH]; [reflexivity|]. cbn [bi_fifo_wr]. unfold mem_write. rewrite fit_byte by exact Hd.
  rewrite (bbind_done _ _ _ _ _ _ _ _ (eq_refl : bemit (Wr W16 REG_FIFO_DATA d) s ans = BDone tt s ans [Wr W16 REG_FIFO_DATA d])), IH. reflexivity.
Qed.
Lemma pro_write_eq data s ans : Forall byte data -> Z.of_nat (length data) < 65536 ->
  comm_write TPro data s ans = BDone tt s ans (map (Wr W16 0xA130D0) (0x2B :: 0xD4 :: 0x22 :: 0xDD :: Z.of_nat (length data) / 256 :: Z.of_nat (length data) mod 256 :: data)).
Proof.
  intros Hd L. unfold comm_write, comm_everdrive_pro_write, bi_cmd_usb_wr, bi_cmd_tx.
  assert (U : u16 (Z.of_nat (length data)) = Z.of_nat (length data)) by (unfold u16; apply Z.mod_small; lia). rewrite U.
  rewrite (bbind_done _ _ _ _ _ _ _ _ (fifo_wr_eq [0x2B; 0xD4; 0x22; 0xDD] s ans ltac:(repeat constructor; lia))).
  assert (B2 : Forall byte [Z.of_nat (length data) / 256; Z.of_nat (length data) mod 256]).
  { repeat constructor; try (apply Z.div_pos; lia); try (apply Z.div_lt_upper_bound; lia); apply Z.mod_pos_bound; lia. }
  rewrite (bbind_done _ _ _ _ _ _ _ _ (fifo_wr_eq _ s ans B2)), (fifo_wr_eq data s ans Hd). reflexivity.
Qed.
Lemma written_map l : written 0xA130D0 (map (Wr W16 0xA130D0) l) = l.
Proof. induction l as [|x l IH]; [reflexivity|]. unfold written in *. cbn [map flat_map]. rewrite Z.eqb_refl. cbn [Datatypes.app]. f_equal. exact IH. Qed.
Theorem pro_frames msgs s ans : Forall (Forall byte) msgs -> Forall (fun d => Z.of_nat (length d) < 65536) msgs ->
  exists tr, in_turn (map (comm_write TPro) msgs) s ans = BDone tt s ans tr /\ usb_frames (written (tx_reg TPro) tr) msgs /\
    Forall (fun e => exists v, e = Wr W16 (tx_reg TPro) v) tr.
Proof.
  intros Hb Hl. induction msgs as [|d msgs IH]; [exists []; repeat constructor|].
  apply Forall_cons_iff in Hb as [Hd Hb]. apply Forall_cons_iff in Hl as [Ld Hl]. destruct (IH Hb Hl) as (tr & E & F & O).
  cbn [map in_turn]. rewrite (bbind_done _ _ _ _ _ _ _ _ (pro_write_eq d s ans Hd Ld)), E. eexists. split; [reflexivity|]. split.
  - change (tx_reg TPro) with 0xA130D0 in *. rewrite written_app, written_map. cbn [Datatypes.app].
    apply frames_more; [rewrite Z.mul_comm; apply Z.div_mod; lia|apply Z.mod_pos_bound; lia|exact F].
  - apply Forall_app. split; [|exact O]. apply Forall_forall. intros e (v & <- & _)%in_map_iff. eauto.
Qed.
Theorem frames_unique bs l1 l2 : usb_frames bs l1 -> usb_frames bs l2 -> l1 = l2.
Proof.
  intros H. revert l2. induction H as [|hi lo d bs l Hd Hlo H IH]; intros l2 H2.
  - inversion H2. reflexivity.
  - inversion H2 as [|hi2 lo2 d2 bs2 l' Hd2 Hlo2 H' E El]. subst hi2 lo2 l2. assert (L : length d2 = length d) by lia.
    assert (d2 = d /\ bs2 = bs) as [-> ->].
    { match goal with X : d2 ++ bs2 = d ++ bs |- _ => clear - X L; revert d L X; induction d2 as [|y d2 IH]; intros [|z d] L X; cbn in L; try discriminate; [auto|];
        injection X as -> X; destruct (IH d ltac:(lia) X) as [-> ->]; auto end. }
    f_equal. apply IH. exact H'.
Qed.

(** ** Reading from a cartridge *)
Lemma x7_read_ready s ans : comm_everdrive_read_ready s ans =
  match ans with [] => BWaits [] | v :: t => BDone (Z.testbit (fit W16 v) 2) s t [Rd W16 0xA130E4 (fit W16 v)] end.
Proof.
  destruct ans as [|v t]; [reflexivity|]. unfold comm_everdrive_read_ready, bbind, mem_read, bret. cbn [Datatypes.app]. f_equal.
  change STE_USB_RD_RDY with (2 ^ 2). rewrite land_bit by lia. destruct (Z.testbit (fit W16 v) 2); reflexivity.
Qed.
Lemma pro_read_ready s ans : comm_everdrive_pro_read_ready s ans =
  match ans with [] => BWaits [] | v :: t => BDone (negb (Z.testbit (fit W16 v) 15)) s t [Rd W16 0xA130D2 (fit W16 v)] end.
Proof.
  destruct ans as [|v t]; [reflexivity|]. unfold comm_everdrive_pro_read_ready, bi_fifo_busy, bbind, mem_read, bret. cbn [Datatypes.app]. f_equal.
  change FIFO_CPU_RXF with (2 ^ 15). rewrite land_bit by lia. destruct (Z.testbit (fit W16 v) 15); reflexivity.
Qed.
Lemma blink_eq s ans : everdrive_led_blink s ans = if dv_led s then BDone tt s ans [] else BDone tt (set_led true s) ans [Wr W16 0xA130F0 0x9000].
Proof. unfold everdrive_led_blink, bbind, bgets, bwhen. destruct (dv_led s); reflexivity. Qed.
Lemma tick_eq s ans : everdrive_led_tick s ans = if dv_led s then BDone tt (set_led false s) ans [Wr W16 0xA130F0 0x8000] else BDone tt s ans [].
Proof. unfold everdrive_led_tick, bbind, bgets, bwhen. destruct (dv_led s); reflexivity. Qed.

(** The FIFO. *)
Lemma land_2047 v : Z.land v FIFO_RXF_MSK = v mod 2048.
Proof. exact (Z.land_ones v 11 ltac:(lia)). Qed.
Lemma words_spec n : forall s ans l s' rest tr, fifo_words n s ans = BDone l s' rest tr ->
  s' = s /\ length l = n /\ l = map u8 (fetched 0xA130D0 tr) /\ length (fetched 0xA130D0 tr) = n /\ (length rest + n = length ans)%nat /\ Forall (fun e => exists v, e = Rd W16 0xA130D0 v) tr.
Proof.
  induction n as [|n IH]; intros s ans l s' rest tr H; cbn [fifo_words] in H.
  - injection H as <- <- <- <-. repeat split; auto; lia.
  - apply bbind_inv in H as (v & s1 & r1 & o1 & o2 & E1 & H & ->). apply bbind_inv in H as (l2 & s2 & r2 & o3 & o4 & E2 & H & ->).
    injection H as <- <- <- <-. destruct ans as [|x ans]; [discriminate|]. injection E1 as <- <- <- <-. destruct (IH _ _ _ _ _ _ E2) as (-> & L & M & F & N & O).
    rewrite app_nil_r. unfold fetched in *. cbn [Datatypes.app flat_map map length]. rewrite Z.eqb_refl. cbn [Datatypes.app map length]. split; [reflexivity|].
    split; [lia|]. split; [f_equal; exact M|]. split; [lia|]. split; [lia|]. constructor; [eauto|exact O].
Qed.
Lemma fetched_app a x y : fetched a (x ++ y) = fetched a x ++ fetched a y.
Proof. apply flat_map_app. Qed.
Lemma fair_app x : forall left y, Forall (fun e => exists v, e = Rd W16 0xA130D0 v) x -> Z.of_nat (length x) <= left ->
  fifo_fair (left - Z.of_nat (length x)) y -> fifo_fair left (x ++ y).
Proof.
  induction x as [|e x IH]; intros left y O L F; [cbn in *; rewrite Z.sub_0_r in F; exact F|].
  apply Forall_cons_iff in O as [(v & ->) O]. cbn [Datatypes.app fifo_fair length] in *. change (0xA130D0 =? 0xA130D2) with false. cbv iota. rewrite Z.eqb_refl.
  split; [lia|]. apply IH; [exact O|lia|]. replace (left - 1 - Z.of_nat (length x)) with (left - Z.of_nat (S (length x))) by lia. exact F.
Qed.
Lemma fetched_words tr : Forall (fun e => exists v, e = Rd W16 0xA130D0 v) tr -> length (fetched 0xA130D0 tr) = length tr.
Proof. induction 1 as [|e tr (v & ->) H IH]; [reflexivity|]. unfold fetched in *. cbn [flat_map]. rewrite Z.eqb_refl. cbn [Datatypes.app length]. f_equal. exact IH. Qed.
Lemma blocks_spec n : forall len s ans l s' rest tr left, 0 <= len -> fifo_blocks n len s ans = BDone l s' rest tr ->
  s' = s /\ Z.of_nat (length l) = len /\ l = map u8 (fetched 0xA130D0 tr) /\ fifo_fair left tr.
Proof.
  induction n as [|n IH]; intros len s ans l s' rest tr left P H; cbn [fifo_blocks] in H; destruct (Z.eqb_spec len 0) as [->|N]; try discriminate.
  - injection H as <- <- <- <-. repeat split.
  - injection H as <- <- <- <-. repeat split.
  - apply bbind_inv in H as (v & s1 & r1 & o1 & o2 & E1 & H & ->). cbv zeta in H. set (block := Z.min (Z.land v FIFO_RXF_MSK) len) in H.
    assert (Hb : 0 <= block <= len /\ block <= v mod 2048).
    { unfold block. rewrite land_2047. assert (0 <= v mod 2048 < 2048) by (apply Z.mod_pos_bound; lia). lia. }
    apply bbind_inv in H as (a & s2 & r2 & o3 & o4 & E2 & H & ->). apply bbind_inv in H as (b & s3 & r3 & o5 & o6 & E3 & H & ->). injection H as <- <- <- <-.
    destruct ans as [|x ans]; [discriminate|]. injection E1 as <- <- <- <-. destruct (words_spec _ _ _ _ _ _ _ E2) as (-> & L & M & F & _ & O).
    rewrite (fetched_words _ O) in F.
    destruct (IH (len - block) _ _ _ _ _ _ ((fit W16 x) mod 2048 - Z.of_nat (length o3)) ltac:(lia) E3) as (-> & L2 & M2 & F2).
    split; [reflexivity|]. rewrite app_nil_r, app_length. split; [lia|]. rewrite !fetched_app, !map_app. split; [rewrite <- M, <- M2; reflexivity|].
    cbn [Datatypes.app fifo_fair]. change (REG_FIFO_STAT =? 0xA130D2) with true. cbv iota. apply fair_app; [exact O|lia|exact F2].
Qed.
Theorem fifo_read len s ans l s' rest tr : 0 <= len -> bi_fifo_rd len s ans = BDone l s' rest tr ->
  Z.of_nat (length l) = len /\ l = map (fun w => w mod 256) (fetched 0xA130D0 tr) /\ fifo_fair 0 tr.
Proof. intros P H. destruct (blocks_spec _ _ _ _ _ _ _ _ 0 P H) as (_ & L & M & F). auto. Qed.
(** Nobody waits for a FIFO that has answered. *)
Lemma blocks_one n : forall s ans, (length ans < n)%nat -> (exists f, fifo_blocks n 1 s ans = BWaits f) \/
  exists zeros x y rest, ans = zeros ++ x :: y :: rest /\ Forall (fun v => fit W16 v mod 2048 = 0) zeros /\ fit W16 x mod 2048 <> 0 /\
    fifo_blocks n 1 s ans = BDone [u8 (fit W16 y)] s rest (map (fun v => Rd W16 0xA130D2 (fit W16 v)) (zeros ++ [x]) ++ [Rd W16 0xA130D0 (fit W16 y)]).
Proof.
  induction n as [|n IH]; intros s ans L; [lia|]. change (fifo_blocks (S n) 1) with
    (v <- mem_read W16 REG_FIFO_STAT ;; let block := Z.min (Z.land v FIFO_RXF_MSK) 1 in a <- fifo_words (Z.to_nat block) ;; b <- fifo_blocks n (1 - block) ;; bret (a ++ b)).
  destruct ans as [|x ans]; [left; eexists; reflexivity|]. cbn [length] in L.
  rewrite (bbind_done _ _ _ _ _ _ _ _ (eq_refl : mem_read W16 REG_FIFO_STAT s (x :: ans) = BDone (fit W16 x) s ans [Rd W16 0xA130D2 (fit W16 x)])). cbv zeta.
  rewrite land_2047. assert (Hm := Z.mod_pos_bound (fit W16 x) 2048 ltac:(lia)). destruct (Z.eq_dec (fit W16 x mod 2048) 0) as [Zx|Zx].
  - rewrite Zx. change (Z.to_nat (Z.min 0 1)) with 0%nat. change (1 - Z.min 0 1) with 1.
    rewrite (bbind_done _ _ _ _ _ _ _ _ (eq_refl : fifo_words 0 s ans = BDone [] s ans [])).
    destruct (IH s ans ltac:(lia)) as [(f & E)|(zeros & y & z & rest & -> & Hz & Hy & E)].
    + left. rewrite (bbind_waits _ _ _ _ _ E). eexists. reflexivity.
    + right. rewrite (bbind_done _ _ _ _ _ _ _ _ E). exists (x :: zeros), y, z, rest. split; [reflexivity|]. split; [constructor; assumption|]. split; [exact Hy|].
      cbn [bret Datatypes.app map]. rewrite app_nil_r. reflexivity.
  - replace (Z.min (fit W16 x mod 2048) 1) with 1 by lia. change (Z.to_nat 1) with 1%nat. change (1 - 1) with 0.
    destruct ans as [|y ans]; [left; eexists; reflexivity|]. right. exists [], x, y, ans. split; [reflexivity|]. split; [constructor|]. split; [exact Zx|].
    destruct n as [|n]; reflexivity.
Qed.

Lemma not_read_map st a (l : list Z) : st <> a -> Forall (fun e => ~ is_read_of a e) (map (fun v => Rd W16 st (fit W16 v)) l).
Proof. intros N. apply Forall_forall. intros e (v & <- & _)%in_map_iff (w & y & X). congruence. Qed.
(** The LED write, if any, and the state afterwards. *)
Definition blink (s : drv) : list bus := if dv_led s then [] else [Wr W16 0xA130F0 0x9000].
Definition blinked (s : drv) : drv := if dv_led s then s else set_led true s.
Lemma blink_done s ans : everdrive_led_blink s ans = BDone tt (blinked s) ans (blink s).
Proof. rewrite blink_eq. unfold blink, blinked. destruct (dv_led s); reflexivity. Qed.
Lemma blink_quiet s : Forall (fun e => ~ is_read e) (blink s).
Proof. unfold blink. destruct (dv_led s); constructor; [intros (w & a & v & X); discriminate X|constructor]. Qed.
Lemma quiet_no_read a l : Forall (fun e => ~ is_read e) l -> Forall (fun e => ~ is_read_of a e) l.
Proof. apply Forall_impl. intros e H (w & v & ->). apply H. exists w, a, v. reflexivity. Qed.

Lemma written_status st a l : written a (map (fun v => Rd W16 st (fit W16 v)) l) = [].
Proof. induction l; auto. Qed.
Lemma comm_read_spec u s ans v s' rest tr : comm_read u s ans = BDone v s' rest tr ->
  takes_one u tr v /\ s' = blinked s /\ written 0xA130F0 tr = written 0xA130F0 (blink s).
Proof.
  destruct u; cbn [comm_read].
  - destruct (polls s comm_everdrive_read_ready W16 0xA130E4 (fun x => Z.testbit x 2) (x7_read_ready s) ans) as [(skip & x & r & -> & Hs & Hx & E)|(Hs & E)];
      [rewrite (bbind_done _ _ _ _ _ _ _ _ E)|rewrite (bbind_waits _ _ _ _ _ E); discriminate].
    unfold comm_everdrive_read. rewrite (bbind_done _ _ _ _ _ _ _ _ (blink_done s r)). destruct r as [|y r]; [discriminate|].
    cbn [bbind mem_read bret Datatypes.app]. intros [= <- <- <- <-]. split; [|split; [reflexivity|]].
    + exists (map (fun v => Rd W16 0xA130E4 (fit W16 v)) skip), (blink s), (fit W16 x), (fit W16 y).
      split; [rewrite map_app, <- app_assoc; reflexivity|]. split; [exact Hx|]. split; [reflexivity|]. split; [|apply blink_quiet].
      apply Forall_app. split; [apply not_read_map; discriminate|apply quiet_no_read, blink_quiet].
    + rewrite !written_app. rewrite (written_status 0xA130E4 0xA130F0 (skip ++ [x]) : written 0xA130F0 (map (fun v => Rd W16 0xA130E4 (u16 v)) (skip ++ [x])) = []).
      cbn [Datatypes.app]. change (written 0xA130F0 [Rd W16 REG_USB (u16 y)]) with (@nil Z). apply app_nil_r.
  - destruct (polls s comm_everdrive_pro_read_ready W16 0xA130D2 (fun x => negb (Z.testbit x 15)) (pro_read_ready s) ans) as [(skip & x & r & -> & Hs & Hx & E)|(Hs & E)];
      [rewrite (bbind_done _ _ _ _ _ _ _ _ E)|rewrite (bbind_waits _ _ _ _ _ E); discriminate].
    unfold comm_everdrive_pro_read. rewrite (bbind_done _ _ _ _ _ _ _ _ (blink_done s r)). unfold bi_fifo_rd, bbind.
    destruct (blocks_one (S (length r)) (blinked s) r ltac:(lia)) as [(f & ->)|(zeros & z & y & r' & -> & Hz & Hy & ->)]; [discriminate|].
    unfold bret. intros [= <- <- <- <-]. rewrite !app_nil_r. split; [|split; [reflexivity|]].
    + exists (map (fun v => Rd W16 0xA130D2 (fit W16 v)) (skip ++ [x]) ++ blink s ++ map (fun v => Rd W16 0xA130D2 (fit W16 v)) zeros), [], (fit W16 z), (fit W16 y).
      split; [rewrite (map_app _ zeros), <- !app_assoc; reflexivity|]. split; [exact Hy|]. split; [reflexivity|]. split; [|constructor].
      rewrite app_nil_r. apply Forall_app. split; [apply not_read_map; discriminate|]. apply Forall_app. split; [apply quiet_no_read, blink_quiet|apply not_read_map; discriminate].
    + rewrite !written_app, !written_status. cbn [Datatypes.app]. change (written 0xA130F0 [Rd W16 0xA130D0 (fit W16 y)]) with (@nil Z). rewrite ?app_nil_r. reflexivity.
Qed.
Theorem reads_one u s ans v s' rest tr : comm_read u s ans = BDone v s' rest tr -> takes_one u tr v.
Proof. intros H. apply (comm_read_spec _ _ _ _ _ _ _ H). Qed.

(** ** The light *)
Lemma led_last ops : Forall no_store ops -> forall s ans s' rest tr, led_run ops s ans = BDone tt s' rest tr ->
  Forall (fun v => v = 0x8000 \/ v = 0x9000) (written 0xA130F0 tr) /\ dv_led s' = read_since (dv_led s) ops /\
  (match rev (written 0xA130F0 tr) with [] => dv_led s | v :: _ => Z.testbit v 12 end) = dv_led s'.
Proof.
  induction 1 as [|op ops Hop Hops IH]; intros s ans s' rest tr H; cbn [led_run map in_turn] in H.
  - injection H as <- <- <-. repeat split. constructor.
  - apply bbind_inv in H as ([] & s1 & r1 & o1 & o2 & E1 & H & ->).
    destruct (IH _ _ _ _ _ H) as (F & R & L).
    assert (G : Forall (fun v => v = 0x8000 \/ v = 0x9000) (written 0xA130F0 o1) /\ dv_led s1 = match op with LRead _ => true | _ => false end /\
      (match rev (written 0xA130F0 o1) with [] => dv_led s | v :: _ => Z.testbit v 12 end) = dv_led s1).
    { destruct op as [u| |op]; [| |destruct Hop]; cbn [led_step] in E1.
      - apply bbind_inv in E1 as (v & s2 & r2 & o3 & o4 & E1 & E2 & ->). injection E2 as <- <- <-. rewrite app_nil_r.
        destruct (comm_read_spec _ _ _ _ _ _ _ E1) as (_ & -> & ->). unfold blink, blinked. destruct (dv_led s) eqn:D; (split; [repeat (apply Forall_cons || apply Forall_nil); auto|split; [assumption || reflexivity|cbn; rewrite ?D; reflexivity]]).
      - rewrite tick_eq in E1. destruct (dv_led s) eqn:D; injection E1 as <- <- <-; (split; [repeat (apply Forall_cons || apply Forall_nil); auto|split; [assumption || reflexivity|cbn; rewrite ?D; reflexivity]]). }
    destruct G as (F1 & R1 & L1). rewrite written_app. split; [apply Forall_app; auto|].
    split; [rewrite R, R1; destruct op; [reflexivity|reflexivity|destruct Hop]|]. rewrite rev_app_distr. destruct (rev (written 0xA130F0 o2)) as [|v l]; cbn [Datatypes.app].
    + rewrite L1. exact L.
    + exact L.
Qed.
Theorem light ops s ans s' rest tr : Forall no_store ops -> dv_led s = false -> led_run ops s ans = BDone tt s' rest tr ->
  lit tr = read_since false ops /\ Forall (fun v => v = 0x8000 \/ v = 0x9000) (written 0xA130F0 tr).
Proof.
  intros N D H. destruct (led_last _ N _ _ _ _ _ H) as (F & R & L). rewrite D in *. split; [|exact F]. unfold lit. rewrite <- R, <- L. reflexivity.
Qed.
