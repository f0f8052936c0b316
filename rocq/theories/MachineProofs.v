From Verif Require Import Base BaseLemmas RingBufModel RingBufSpec RingBufProofs SchedulerModel MidiModel MidiSpec RxModel RxSpec RxProofs SerialModel SerialSpec SerialProofs.
From Verif Require Import DevModel AppModel AppSpec AppProofs MachineModel MachineSpec.

(** ** Decoding the beginning of a stream *)
Lemma strict_prefix {A} (p more rest e : list A) : p ++ rest = e ++ more ->
  (exists q, p = e ++ q /\ q ++ rest = more) \/ (exists q, q <> [] /\ e = p ++ q).
Proof.
  revert p. induction e as [|x e IH]; intros p H; [left; exists p; auto|].
  destruct p as [|y p]; [right; exists (x :: e); split; [discriminate|reflexivity]|].
  injection H as -> H. destruct (IH p H) as [(q & -> & Q)|(q & Q & ->)]; [left|right]; exists q; auto.
Qed.

Lemma sysex_part r body p q : Forall (fun d => d <> 0xF7) body -> (length body <= 256)%nat -> q <> [] -> 0xF0 :: body ++ [0xF7] = p ++ q ->
  (exists st, rx_run r None p = Ran [] st) \/ (length body = 256%nat /\ p = 0xF0 :: body /\ rx_run r None p = Ran [MSysex body] None).
Proof.
  intros Hb Hl Hq E. destruct p as [|x p]; [left; eexists; reflexivity|]. cbn [Datatypes.app] in E. injection E as <- E.
  destruct (exists_last Hq) as (q' & z & ->). rewrite app_assoc in E. apply app_inj_tail in E as [E <-].
  cbn [rx_run]. change (rx_byte r None 0xF0) with (Ran [] (Some (read_sysex 256 []))). cbv iota.
  assert (Hp : Forall (fun d => d <> 0xF7) p) by (rewrite E in Hb; apply Forall_app in Hb as [Hb _]; exact Hb).
  assert (Lp : (length p + length q' = length body)%nat) by (rewrite E, app_length; reflexivity).
  rewrite (sysex_run r p) by (assumption || lia). cbn [Datatypes.app].
  destruct (Nat.eqb_spec (length p) 256) as [L|L].
  - right. split; [lia|]. destruct q'; [|cbn in Lp; lia]. rewrite app_nil_r in E. subst p. auto.
  - left. eexists. reflexivity.
Qed.

Lemma message_part r m p q : msg_ok m -> q <> [] -> encode m = p ++ q ->
  (exists st, rx_run r None p = Ran [] st) \/ (exists body, m = SysEx body /\ length body = 256%nat /\ p = 0xF0 :: body /\ rx_run r None p = Ran [MSysex body] None).
Proof.
  intros Hm Hq E.
  assert (U := unknown_skip r).
  assert (D : forall h c, 0 <= c < 16 -> In h [8; 9; 11; 12; 14] -> exists k, rx_byte r None (16 * h + c) = Ran [] (Some (RdByte k))).
  { intros h c Hc Hh. unfold rx_byte, read_message. rewrite nib_hi by assumption. cbn [In] in Hh.
    decompose [or] Hh; subst; try contradiction; eexists; reflexivity. }
  destruct m; cbn [encode msg_ok] in *; unfold chan_ok in *.
  Local Ltac cut3 E Hq :=
    match type of E with _ = ?p ++ ?q => destruct p as [|? [|? [|? p]]]; cbn [Datatypes.app] in E; try (injection E as <- <- <- E; destruct p, q; try discriminate; congruence);
      [left; eexists; reflexivity|injection E as <- _|injection E as <- <- _] end.
  - cut3 E Hq; left; destruct Hm as (Hc & Hk & _); replace (128 + c) with (16 * 8 + c) by lia; cbn [rx_run]; unfold rx_byte at 1, read_message; rewrite nib_hi by assumption; eexists; reflexivity.
  - cut3 E Hq; left; destruct Hm as (Hc & Hk & _); replace (144 + c) with (16 * 9 + c) by lia; cbn [rx_run]; unfold rx_byte at 1, read_message; rewrite nib_hi by assumption; eexists; reflexivity.
  - cut3 E Hq; left; destruct Hm as (Hc & Hk & _); exists None; cbn [rx_run]; rewrite !U by (try (apply data_unknown; assumption); unfold unknown_status; lia); reflexivity.
  - cut3 E Hq; left; destruct Hm as (Hc & Hk & _); replace (176 + c) with (16 * 11 + c) by lia; cbn [rx_run]; unfold rx_byte at 1, read_message; rewrite nib_hi by assumption; eexists; reflexivity.
  - destruct p as [|? [|? p]]; cbn [Datatypes.app] in E; [left; eexists; reflexivity|injection E as <- _|injection E as <- <- E; destruct p, q; try discriminate; congruence].
    left. destruct Hm as (Hc & _). replace (192 + c) with (16 * 12 + c) by lia; cbn [rx_run]; unfold rx_byte at 1, read_message; rewrite nib_hi by assumption; eexists; reflexivity.
  - destruct p as [|? [|? p]]; cbn [Datatypes.app] in E; [left; eexists; reflexivity|injection E as <- _|injection E as <- <- E; destruct p, q; try discriminate; congruence].
    left. destruct Hm as (Hc & _). exists None. cbn [rx_run]. rewrite U by (unfold unknown_status; lia). reflexivity.
  - cut3 E Hq; left; destruct Hm as (Hc & _); replace (224 + c) with (16 * 14 + c) by lia; cbn [rx_run]; unfold rx_byte at 1, read_message; rewrite nib_hi by assumption; eexists; reflexivity.
  - destruct Hm as (Hb & Hl). destruct (sysex_part r body p q) as [S|S]; auto.
    + eapply Forall_impl; [|exact Hb]. intros d Hd. unfold data_ok in Hd. lia.
    + right. exists body. tauto.
  - destruct p as [|? [|? p]]; cbn [Datatypes.app] in E; [left; eexists; reflexivity|injection E as <- _|injection E as <- <- E; destruct p, q; try discriminate; congruence].
    left. eexists. reflexivity.
  - cut3 E Hq; left; eexists; reflexivity.
  - destruct p as [|? [|? p]]; cbn [Datatypes.app] in E; [left; eexists; reflexivity|injection E as <- _|injection E as <- <- E; destruct p, q; try discriminate; congruence].
    left. eexists. reflexivity.
  - destruct p as [|? p]; cbn [Datatypes.app] in E; [left; eexists; reflexivity|injection E as <- E; destruct p, q; try discriminate; congruence].
  - destruct p as [|? p]; cbn [Datatypes.app] in E; [left; eexists; reflexivity|injection E as <- E; destruct p, q; try discriminate; congruence].
  - destruct p as [|? p]; cbn [Datatypes.app] in E; [left; eexists; reflexivity|injection E as <- E; destruct p, q; try discriminate; congruence].
Qed.

Lemma whole_message m : msg_ok m -> receive [] None (encode m) = Ran (meaning [] m) None.
Proof.
  intros H. assert (S := c03 [] [m] (conj (Forall_nil _) (Forall_nil _)) (Forall_cons _ H (Forall_nil _))).
  unfold stream, meanings in S. cbn [flat_map] in S. rewrite !app_nil_r in S. exact S.
Qed.

Lemma decoded l : Forall msg_ok l -> forall p rest, p ++ rest = stream l ->
  exists l1 l2 st, l = l1 ++ l2 /\ receive [] None p = Ran (meanings [] l1) st /\ has_read l1 l2 p.
Proof.
  induction l as [|m l IH]; intros Hl p rest E.
  - exists [], [], None. destruct p; [|discriminate]. split; [reflexivity|]. split; [reflexivity|]. left. exists []. auto.
  - inversion Hl as [|? ? Hm Hl']; subst. change (stream (m :: l)) with (encode m ++ stream l) in E.
    destruct (strict_prefix _ _ _ _ E) as [(q & -> & Q)|(q & Q & Em)].
    + destruct (IH Hl' q rest Q) as (l1 & l2 & st & -> & R & H). exists (m :: l1), l2, st. split; [reflexivity|]. split.
      * unfold receive in *. rewrite rx_run_app. assert (W := whole_message m Hm). unfold receive in W. rewrite W, R. reflexivity.
      * destruct H as [(part & -> & Hp)|(l0 & body & -> & Lb & ->)]; [left; exists part|right; exists (m :: l0), body];
          (split; [|try split; try exact Hp; try exact Lb]); unfold stream; cbn [flat_map Datatypes.app]; rewrite <- ?app_assoc; reflexivity.
    + destruct (message_part (reset_action []) m p q Hm Q Em) as [(st & R)|(body & -> & Lb & -> & R)].
      * exists [], (m :: l), st. split; [reflexivity|]. split; [exact R|]. left. exists p. split; [reflexivity|]. exists q. auto.
      * exists [SysEx body], l, None. split; [reflexivity|]. split; [exact R|]. right. exists [], body. auto.
Qed.

Lemma meaning_ok m : msg_ok m -> Forall mop_ok (meaning [] m).
Proof.
  unfold mop_ok, is_chan, seven. destruct m; cbn [msg_ok meaning]; unfold chan_ok, data_ok; intros H; repeat (apply Forall_cons || apply Forall_nil); try exact Logic.I; try tauto; try lia.
Qed.
Lemma meanings_ok l : Forall msg_ok l -> Forall mop_ok (meanings [] l).
Proof. intros H. apply Forall_flat_map. eapply Forall_impl; [|exact H]. exact meaning_ok. Qed.

(** ** The invariant of the running machine *)
Lemma can_write_ring r q : ring_repr r 512 q -> ring_buf_can_write r = true -> (length q < 511)%nat.
Proof.
  intros Hr H. destruct (ring_step_refines r 512 q RCanWrite Hr Logic.I) as (r' & E & _).
  cbn [ring_step fifo_step fst snd] in E. unfold bind, gets, ret in E. rewrite H in E. change (Z.to_nat (512 - 1)) with 511%nat in E.
  destruct (Nat.ltb_spec (length q) 511); [assumption|congruence].
Qed.
Lemma ready_holds s q st : holds s q st -> serial_read_ready s = match q with [] => false | _ => true end.
Proof.
  intros (Hr & _ & Hv). unfold serial_read_ready. rewrite (ready_ring _ _ Hr). destruct q; [destruct (sl_recv s); reflexivity|].
  rewrite Hv by discriminate. reflexivity.
Qed.

Lemma arrived_app a b : arrived (a ++ b) = arrived a ++ arrived b.
Proof. apply flat_map_app. Qed.
Lemma blanks_app a b : blanks (a ++ b) = blanks a + blanks b.
Proof. induction a as [|e a IH]; cbn [Datatypes.app blanks]; [reflexivity|]. destruct e; lia. Qed.
Lemma blanks_pos a : 0 <= blanks a.
Proof. induction a as [|e a IH]; cbn [blanks]; [lia|]. destruct e; lia. Qed.
Lemma msgs_app a b : msgs (a ++ b) = msgs a ++ msgs b.
Proof. apply flat_map_app. Qed.
Lemma msgs_map l : msgs (map AMsg l) = l.
Proof. induction l as [|m l IH]; [reflexivity|]. cbn. unfold msgs in IH. rewrite IH. reflexivity. Qed.
Local Notation frames := frames_done.
Lemma frames_app a b : frames (a ++ b) = frames a + frames b.
Proof. induction a as [|o a IH]; cbn [Datatypes.app frames_done]; [reflexivity|]. destruct o; lia. Qed.
Lemma frames_map l : frames (map AMsg l) = 0.
Proof. induction l; auto. Qed.

Lemma run_machine_snoc r evs e m0 m o : machine_run r (evs ++ [e]) m0 = Done tt m o ->
  exists m1 o1 o2, machine_run r evs m0 = Done tt m1 o1 /\ machine_step r e m1 = Done tt m o2 /\ o = o1 ++ o2.
Proof.
  unfold machine_run. rewrite runM_app. unfold bind. destruct (runM (machine_step r) evs _) as [[] m1 o1|f]; [|discriminate]. cbn [runM]. unfold bind, ret.
  destruct (machine_step r e m1) as [[] m2 o2|f] eqn:E; [|discriminate]. intros [= <- <-]. exists m1, o1, o2. rewrite app_nil_r. auto.
Qed.
Lemma run_machine_step r evs e m0 m1 o1 m o : machine_run r evs m0 = Done tt m1 o1 -> machine_step r e m1 = Done tt m o ->
  machine_run r (evs ++ [e]) m0 = Done tt m (o1 ++ o).
Proof.
  intros E E1. unfold machine_run in *. rewrite runM_app. unfold bind. rewrite E. cbn [runM]. unfold bind, ret. rewrite E1, app_nil_r. reflexivity.
Qed.

Lemma messages_run_on r hw mem ms : Forall mop_ok ms -> forall ops a tr a' o, history r hw mem ops a tr ->
  app_run r (map AMsg ms) a = Done tt a' o -> history r hw mem (ops ++ map AMsg ms) a' (tr ++ o).
Proof.
  induction ms as [|x ms IH]; intros Hm ops a tr a' o H E.
  - injection E as <- <-. cbn [map]. rewrite !app_nil_r. exact H.
  - inversion Hm; subst. cbn [map app_run runM] in E. unfold app_run in E. cbn [runM] in E. apply bind_inv in E as ([] & a1 & o1 & o2 & E1 & E2 & ->).
    assert (H1 := history_snoc _ _ _ _ (AMsg x) _ _ _ _ H H2 E1).
    specialize (IH H3 _ _ _ _ _ H1 E2). rewrite <- !app_assoc in IH. rewrite <- app_assoc in IH || idtac. exact IH.
Qed.

(** Where the frames are: [V] blanks so far, [F] frames performed. *)
Definition counted (s : sched) (V F : Z) : Prop :=
  sc_n s = FRAME_HANDLERS /\ F <= V /\ 0 <= sc_frame s < 65536 /\
  match sc_pc s with
  | SchedulerModel.PTick | PCmp => exists V0, F <= V0 <= V /\ 0 <= sc_prev s < 65536 /\ sc_frame s = u16 (sc_prev s + (V - V0))
  | PDelta => F + 1 <= V
  | PCall i _ => (i < FRAME_HANDLERS)%nat /\ ((i < 2)%nat -> F + 1 <= V)
  | PLoad => True
  | PStore v => exists V0, F <= V0 <= V /\ 0 <= v < 65536 /\ sc_frame s = u16 (v + (V - V0))
  end.
(** What has been performed: [ops], and half a frame between its two handlers. *)
Definition performed (r : rom) (hw : hardware) (mem : list Z) (ops : list aop) (m : machine) (tr : list event) : Prop :=
  match sc_pc (mc_sched m) with
  | PCall 1 _ => exists a0 tr0 o, history r hw mem ops a0 tr0 /\ app_dev (ps r PsgModel.PTick) a0 = Done tt (mc_app m) o /\ tr = tr0 ++ o
  | _ => history r hw mem ops (mc_app m) tr
  end.
(** ... when every blank finds the earlier ones seen to. *)
Definition exact_count (s : sched) (V F : Z) : Prop :=
  match sc_pc s with
  | SchedulerModel.PTick | PCmp => 0 <= sc_prev s < 65536 /\ ((sc_frame s = sc_prev s /\ F = V) \/ (sc_frame s = u16 (sc_prev s + 1) /\ V = F + 1))
  | PDelta => V = F + 1
  | PCall i _ => if Nat.ltb i 2 then V = F + 1 else V = F
  | PLoad => V = F
  | PStore v => V = F /\ v = sc_frame s
  end.
Definition inv_at (X : Prop) (r : rom) (hw : hardware) (mem : list Z) (evs : list mevent) (m : machine) (tr : list event) (ops : list aop) : Prop :=
  exists read wait st,
    arrived evs = read ++ wait /\ holds (mc_port m) wait st /\ receive [] None read = Ran (msgs ops) st /\
    performed r hw mem ops m tr /\ counted (mc_sched m) (blanks evs) (frames ops) /\ (X -> exact_count (mc_sched m) (blanks evs) (frames ops)).

Lemma u16_id x : 0 <= x < 65536 -> u16 x = x.
Proof. unfold u16. intros H. apply Z.mod_small. exact H. Qed.
Lemma u16_in x : 0 <= u16 x < 65536.
Proof. unfold u16. lia. Qed.
Lemma u16_add a b : u16 (u16 a + b) = u16 (a + b).
Proof. unfold u16. rewrite Z.add_mod_idemp_l by lia. reflexivity. Qed.

Lemma counted_blank s V F : counted s V F -> counted (fst (sched_step s LVsync)) (V + 1) F.
Proof.
  intros (N & H & R & P). unfold counted. cbn [sched_step fst sc_n sc_pc sc_frame sc_prev]. split; [exact N|]. split; [lia|]. split; [apply u16_in|].
  destruct (sc_pc s).
  - destruct P as (V0 & A & B & C). exists V0. split; [lia|]. split; [lia|]. rewrite C, u16_add. f_equal. lia.
  - destruct P as (V0 & A & B & C). exists V0. split; [lia|]. split; [lia|]. rewrite C, u16_add. f_equal. lia.
  - lia.
  - split; [apply P|]. intros L. apply P in L. lia.
  - exact Logic.I.
  - destruct P as (V0 & A & B & C). exists V0. split; [lia|]. split; [lia|]. rewrite C, u16_add. f_equal. lia.
Qed.

(** A step of the scheduler; performing handler 1 completes a frame. *)
Definition completes (p : spc) : Z := match p with PCall 1 _ => 1 | _ => 0 end.
Lemma counted_main s V F : counted s V F -> counted (fst (sched_step s LMain)) V (F + completes (sc_pc s)).
Proof.
  intros (N & H & R & P). unfold counted, completes. cbn [sched_step fst].
  destruct (sc_pc s) eqn:Ep.
  - rewrite Z.add_0_r. cbn [fst sc_n sc_pc sc_frame sc_prev]. auto.
  - rewrite Z.add_0_r. cbn [fst]. unfold set_pc. cbn [sc_n sc_pc sc_frame sc_prev]. repeat (split; [assumption|]).
    destruct (Z.eqb_spec (sc_frame s) (sc_prev s)) as [E|E]; [exact P|]. destruct P as (V0 & A & B & C).
    destruct (Z.eq_dec V V0) as [->|]; [|lia]. rewrite Z.sub_diag, Z.add_0_r, u16_id in C by lia. congruence.
  - rewrite Z.add_0_r. cbn [fst]. unfold set_pc. cbn [sc_n sc_pc sc_frame sc_prev]. repeat (split; [assumption|]).
    rewrite N. unfold next_call, FRAME_HANDLERS. cbn [Nat.ltb Nat.leb]. split; [lia|]. auto.
  - cbn [fst]. unfold set_pc. cbn [sc_n sc_pc sc_frame sc_prev]. rewrite N. unfold next_call, FRAME_HANDLERS in *. destruct P as [P0 P].
    destruct i as [|[|[|[|[|i]]]]]; cbn [Nat.ltb Nat.leb]; try lia; (split; [reflexivity|]); try specialize (P ltac:(lia)); repeat (split; [lia|]); try lia; exact Logic.I.
  - rewrite Z.add_0_r. cbn [fst]. unfold set_pc. cbn [sc_n sc_pc sc_frame sc_prev]. repeat (split; [assumption|]). exists V. split; [lia|]. split; [lia|].
    rewrite Z.sub_diag, Z.add_0_r, u16_id; lia.
  - rewrite Z.add_0_r. cbn [fst sc_n sc_pc sc_frame sc_prev]. repeat (split; [assumption|]). exact P.
Qed.

Lemma exact_blank s V F : counted s V F -> seen_to s -> exact_count s V F -> exact_count (fst (sched_step s LVsync)) (V + 1) F.
Proof.
  intros (_ & _ & R & P) (Ef & Ep) H. unfold exact_count in *. cbn [sched_step fst sc_n sc_pc sc_frame sc_prev].
  destruct Ep as [Ep|Ep]; rewrite Ep in *; destruct H as (B & [(_ & H)|(H & _)]); try (split; [exact B|]; right; split; [rewrite Ef; reflexivity|lia]);
    rewrite Ef in H; unfold u16 in H; lia.
Qed.
Lemma exact_main s V F : counted s V F -> exact_count s V F -> exact_count (fst (sched_step s LMain)) V (F + completes (sc_pc s)).
Proof.
  intros (N & _ & R & P) H. unfold exact_count, completes in *. cbn [sched_step fst].
  destruct (sc_pc s) eqn:Ep; cbn [fst]; unfold set_pc; cbn [sc_n sc_pc sc_frame sc_prev]; rewrite ?Z.add_0_r.
  - exact H.
  - destruct (Z.eqb_spec (sc_frame s) (sc_prev s)) as [E|E]; [exact H|]. destruct H as (B & [(H & _)|(_ & H)]); [congruence|exact H].
  - rewrite N. unfold next_call, FRAME_HANDLERS. cbn [Nat.ltb Nat.leb]. exact H.
  - rewrite N. unfold next_call, FRAME_HANDLERS in *. destruct P as [P0 P].
    destruct i as [|[|[|[|[|i]]]]]; try (exfalso; lia); cbv - [Z.add] in H |- *; lia.
  - split; [lia|reflexivity].
  - destruct H as (H & Hv). split; [lia|]. left. split; [congruence|lia].
Qed.

Lemma performed_port r hw mem ops a p p' s tr : performed r hw mem ops (mkMachine a p s) tr -> performed r hw mem ops (mkMachine a p' s) tr.
Proof. exact (fun H => H). Qed.

Lemma inv_step (X : Prop) r hw mem evs e m tr m' o l rest ops :
  Forall msg_ok l -> arrived (evs ++ [e]) ++ rest = stream l ->
  (forall b, e = BArrive b -> ring_buf_can_write (sl_ring (mc_port m)) = true) ->
  (X -> e = BBlank -> seen_to (mc_sched m)) ->
  inv_at X r hw mem evs m tr ops -> machine_step r e m = Done tt m' o ->
  exists more, inv_at X r hw mem (evs ++ [e]) m' (tr ++ o) (ops ++ more).
Proof.
  intros Hl Hs Hroom Hsee (read & wait & st & A & P & R & W & C & X1) E.
  assert (By := encode_bytes l Hl). rewrite <- Hs in By. apply Forall_app in By as [By _]. rewrite arrived_app in By. apply Forall_app in By as [_ By].
  destruct m as [a p s]. cbn [mc_app mc_port mc_sched] in *. destruct e as [b| |]; cbn [machine_step] in E.
  - (* a byte arrives *)
    unfold bind, get in E. cbn [mc_port] in E. assert (Hb : byte_ok b) by (inversion By; assumption).
    destruct (arrive_holds p wait st b P Hb (can_write_ring _ _ (proj1 P) (Hroom b eq_refl))) as (p' & Ea & P').
    rewrite Ea in E. cbn in E. injection E as <- <-. exists []. rewrite (app_nil_r ops). exists read, (wait ++ [b]), st. rewrite arrived_app, A, <- app_assoc, app_nil_r.
    rewrite blanks_app. cbn [blanks]. rewrite Z.add_0_r. split; [reflexivity|]. split; [exact P'|]. split; [exact R|]. split; [exact W|]. split; [exact C|exact X1].
  - (* a vertical blank *)
    cbn in E. injection E as <- <-. exists []. rewrite (app_nil_r ops). exists read, wait, st. rewrite arrived_app, A, blanks_app. cbn [arrived flat_map blanks]. rewrite !app_nil_r.
    split; [reflexivity|]. split; [exact P|]. split; [exact R|]. split; [exact W|].
    cbn [mc_sched]. split; [exact (counted_blank s (blanks evs) (frames ops) C)|]. intros x. exact (exact_blank s _ _ C (Hsee x eq_refl) (X1 x)).
  - (* the main loop *)
    assert (A' : arrived (evs ++ [BMain]) = read ++ wait) by (rewrite arrived_app, A; apply app_nil_r).
    assert (B' : blanks (evs ++ [BMain]) = blanks evs) by (rewrite blanks_app; cbn; lia).
    unfold inv_at. rewrite A', B'. clear A' B'.
    assert (C' := conj (counted_main s (blanks evs) (frames ops) C) (fun x : X => exact_main s (blanks evs) (frames ops) C (X1 x))).
    assert (C1 := conj C X1).
    unfold main_step, bind at 1, get in E. cbn [mc_sched] in E. unfold performed in *. cbn [mc_sched mc_app] in *.
    destruct (sc_pc s) as [| | |i d| |v] eqn:Ep.
    + (* reading *)
      unfold rx_step, bind at 1, get in E. cbn [mc_port] in E. rewrite (ready_holds _ _ _ P) in E. destruct wait as [|x q].
      * destruct P as (Pr & Pst & Pv). rewrite Pst in E. destruct st as [t|].
        -- cbn in E. injection E as <- <-. exists []. rewrite (app_nil_r ops). exists read, [], (Some t). rewrite !app_nil_r. cbn [mc_sched mc_app mc_port]. rewrite Ep. split; [reflexivity|]. split; [split; [exact Pr|split; [exact Pst|exact Pv]]|]. split; [exact R|]. split; [exact W|exact C1].
        -- cbn in E. rewrite Ep in E. injection E as <- <-. exists []. rewrite (app_nil_r ops). exists read, [], None. rewrite !app_nil_r. cbn [mc_sched mc_app mc_port] in *. cbn [sched_step] in C'. rewrite Ep in *. cbn [fst completes sc_pc] in *.
           rewrite Z.add_0_r in C'. split; [reflexivity|]. split; [split; [exact Pr|split; [exact Pst|exact Pv]]|]. split; [exact R|]. split; [exact W|exact C'].
      * assert (Q := poll_holds [] p x q st P). change STARTUP_MIDI_SEQUENCE with (@nil Z) in E.
        destruct (rx_byte (reset_action []) st x) as [ms st'|f] eqn:Eb; [|rewrite Q in E; discriminate].
        destruct Q as (p' & Ep' & Hp'). rewrite Ep' in E. cbn [bind] in E.
        assert (R' : receive [] None (read ++ [x]) = Ran (msgs ops ++ ms) st').
        { unfold receive in *. rewrite rx_run_app, R. cbn [rx_run]. rewrite Eb. cbn [after]. rewrite app_nil_r. reflexivity. }
        assert (Hok : Forall mop_ok ms).
        { rewrite arrived_app, A in Hs. change (arrived [BMain]) with (@nil Z) in Hs. rewrite app_nil_r in Hs.
          destruct (decoded l Hl (read ++ [x]) (q ++ rest)) as (l1 & l2 & st2 & -> & D & _); [rewrite <- Hs, <- !app_assoc; reflexivity|].
          rewrite R' in D. injection D as D _. apply Forall_app in Hl as [Hl _]. apply meanings_ok in Hl. rewrite <- D in Hl.
          apply Forall_app in Hl as [_ Hl]. exact Hl. }
        unfold bind, put_port, modify, on_app, lift in E. cbn [mc_app mc_sched mc_port] in E.
        destruct (app_run r (map AMsg ms) a) as [[] a' o'|f] eqn:Er; [|discriminate]. injection E as <- <-.
        exists (map AMsg ms), (read ++ [x]), q, st'. cbn [mc_app mc_sched mc_port Datatypes.app]. rewrite Ep, msgs_app, msgs_map, frames_app, frames_map, Z.add_0_r, <- app_assoc.
        split; [reflexivity|]. split; [exact Hp'|]. split; [exact R'|]. split; [|exact C1]. exact (messages_run_on r hw mem ms Hok _ _ _ _ _ W Er).
    + cbn in E. rewrite Ep in E. injection E as <- <-. exists []. rewrite (app_nil_r ops). exists read, wait, st. cbn [mc_sched mc_app mc_port] in *. cbn [sched_step] in C'. rewrite Ep in *.
      cbn [fst completes] in *. rewrite Z.add_0_r in C'. rewrite !app_nil_r. split; [reflexivity|]. split; [exact P|]. split; [exact R|]. split; [|exact C'].
      unfold set_pc. cbn [sc_pc]. destruct (sc_frame s =? sc_prev s); exact W.
    + cbn in E. rewrite Ep in E. injection E as <- <-. exists []. rewrite (app_nil_r ops). exists read, wait, st. cbn [mc_sched mc_app mc_port] in *. cbn [sched_step] in C'. rewrite Ep in *.
      cbn [fst completes] in *. rewrite Z.add_0_r in C'. rewrite !app_nil_r. split; [reflexivity|]. split; [exact P|]. split; [exact R|]. split; [|exact C'].
      unfold set_pc. cbn [sc_pc]. destruct C as (N & _). rewrite N. exact W.
    + (* a frame handler *)
      unfold bind, on_app, lift, on_sched, modify in E. cbn [mc_app mc_sched mc_port] in E.
      destruct (frame_handler r i a) as [[] a' o'|f] eqn:Eh; [|discriminate]. injection E as <- <-. rewrite app_nil_r.
      unfold counted in C. rewrite Ep in C. destruct C as (N & _ & _ & Pi & _). unfold FRAME_HANDLERS in Pi.
      cbn [sched_step] in *. rewrite Ep in *. cbn [fst] in *. unfold set_pc in *. cbn [sc_pc mc_sched mc_app mc_port] in *. rewrite N in *.
      destruct i as [|[|i]].
      * exists []. rewrite (app_nil_r ops). exists read, wait, st. cbn [completes] in C'. rewrite Z.add_0_r in C'. repeat (split; [assumption || reflexivity|]). split; [|exact C'].
        cbn [mc_sched mc_app sc_pc]. exists a, tr, o'. auto.
      * destruct W as (a0 & tr0 & o0 & W & E0 & ->). exists [AFrame], read, wait, st. rewrite msgs_app, frames_app. cbn [msgs flat_map frames_done]. rewrite app_nil_r.
        repeat (split; [assumption || reflexivity|]). split; [|exact C'].
        change (history r hw mem (ops ++ [AFrame]) a' ((tr0 ++ o0) ++ o')). rewrite <- app_assoc.
        refine (history_snoc _ _ _ _ AFrame _ _ _ _ W Logic.I _). exact (bind_done _ _ _ _ _ _ _ _ _ E0 Eh).
      * exists []. rewrite (app_nil_r ops). exists read, wait, st. cbn in Eh. injection Eh as <- <-. rewrite app_nil_r. replace (completes (PCall (S (S i)) d)) with 0 in C' by reflexivity. rewrite Z.add_0_r in C'.
        repeat (split; [assumption || reflexivity|]). split; [|exact C']. cbn [mc_sched mc_app sc_pc].
        unfold next_call, FRAME_HANDLERS. destruct i as [|[|[|i]]]; try lia; exact W.
    + cbn in E. rewrite Ep in E. injection E as <- <-. exists []. rewrite (app_nil_r ops). exists read, wait, st. cbn [mc_sched mc_app mc_port] in *. cbn [sched_step] in C'. rewrite Ep in *.
      cbn [fst completes] in *. rewrite Z.add_0_r in C'. rewrite !app_nil_r. split; [reflexivity|]. split; [exact P|]. split; [exact R|]. split; [exact W|exact C'].
    + cbn in E. rewrite Ep in E. injection E as <- <-. exists []. rewrite (app_nil_r ops). exists read, wait, st. cbn [mc_sched mc_app mc_port] in *. cbn [sched_step] in C'. rewrite Ep in *.
      cbn [fst completes] in *. rewrite Z.add_0_r in C'. rewrite !app_nil_r. split; [reflexivity|]. split; [exact P|]. split; [exact R|]. split; [exact W|exact C'].
Qed.
