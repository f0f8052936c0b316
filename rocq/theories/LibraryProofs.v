(** Instruments kept for programs: stores, clears, dumps. *)
From Verif Require Import Base BaseLemmas SynthModel SynthSpec SynthProofs SynthViewProofs.
From Verif Require Import MidiModel MidiSpec MidiProofs MidiOkProofs MidiEqProofs MidiEffectProofs MidiCallProofs MidiChanProofs.
From Verif Require Import PsgModel DevModel DevSpec DevProofs AppModel AppSpec AppProofs AppTraceProofs AppClaimsProofs AppViewProofs LibrarySpec.
From Verif Require Import AppNoteProofs MidiPlaceProofs.
From Verif Require ResetProofs MidiStaticProofs MidiCarryProofs SoundSpec AppToneProofs.

(** ** Which calls concern program [n] *)
Definition leaves (n : Z) (c : dcall) : Prop := forall s x, user_after s c n x = x.
Lemma voice_leaves n c : voice_call c -> leaves n c.
Proof. intros H s x. destruct c; cbn in *; try contradiction; reflexivity. Qed.

Lemma in_own cmd args data : MSysex data = own_sysex cmd args -> data = [0; 34; 119; cmd] ++ args.
Proof. intros [= ->]. reflexivity. Qed.

Lemma wcalls_bind_fault {A B} P f (k : A -> wres B) : wcalls P (wbind (WFault f) k).
Proof. intros a o [=]. Qed.
(** Handlers that look at the kind and the program first. *)
Lemma typed_leaves n args (k : Z -> Z -> wres midi) (f : wres midi) : (forall l, args <> 0 :: n :: l) ->
  (forall m, m <> n -> wcalls (leaves n) (k 0 m)) -> (forall t m, t <> 0 -> wcalls (leaves n) (k t m)) ->
  wcalls (leaves n) (let* t := wdata args 0 in let* m := wdata args 1 in k t m).
Proof.
  intros N K1 K2. destruct args as [|t [|m l]]; [apply wcalls_bind_fault|apply wcalls_bind_ret, wcalls_bind_fault|].
  do 2 apply wcalls_bind_ret. destruct (Z.eq_dec t 0) as [->|T]; [|apply K2, T]. apply K1. intros ->. exact (N _ eq_refl).
Qed.
Lemma store_leaves n args s : (forall l, args <> 0 :: n :: l) -> wcalls (leaves n) (store_program args s).
Proof.
  intros N. unfold store_program. apply typed_leaves; [exact (wret s)|exact N|..].
  - intros m Hm. cbn [Z.eqb].
    assert (HP : forall p, leaves n (DStore m p)) by (intros p d x; cbn; destruct (Z.eqb_spec m n); congruence).
    revert HP. generalize (leaves n). intros P HP. unfold store_operator. calls_go.
  - intros t m Ht. rewrite (proj2 (Z.eqb_neq t 0) Ht). apply wcalls_ret.
Qed.
Lemma clear_leaves n args s : args <> [0; n] -> wcalls (leaves n) (fixed_length 2 clear_program args s).
Proof.
  intros N. unfold fixed_length. destruct (Z.eqb_spec (Z.of_nat (length args)) 2) as [L|]; [cbn [negb]|apply wcalls_ret].
  unfold clear_program. apply typed_leaves; [exact (wret s)|..].
  - intros l ->. destruct l; [apply N; reflexivity|cbn in L; lia].
  - intros m Hm. cbn [Z.eqb]. assert (HP : leaves n (DClear m)) by (intros d x; cbn; destruct (Z.eqb_spec m n); congruence).
    apply wcalls_bind; [apply wcalls_emit, HP|intros; apply wcalls_ret].
  - intros t m Ht. rewrite (proj2 (Z.eqb_neq t 0) Ht). apply wcalls_ret.
Qed.
Lemma clear_all_leaves n args s : args <> [0] -> wcalls (leaves n) (fixed_length 1 clear_all_programs args s).
Proof.
  intros N. unfold fixed_length. destruct (Z.eqb_spec (Z.of_nat (length args)) 1) as [L|]; [cbn [negb]|apply wcalls_ret].
  unfold clear_all_programs. destruct args as [|t [|]]; cbn in L; try lia. apply wcalls_bind_ret.
  destruct (Z.eqb_spec t 0) as [->|]; [contradiction N; reflexivity|apply wcalls_ret].
Qed.

Lemma own_step cmd args s : midi_step (own_sysex cmd args) s = match sysex_handler cmd with None => wret s | Some h => h args s end.
Proof.
  unfold own_sysex. cbn [midi_step]. unfold midi_sysex. cbn [Datatypes.app length].
  destruct (Z.ltb_spec (Z.of_nat (S (S (S (S (length args)))))) 4); [lia|]. cbn [has_prefix andb Z.eqb negb].
  change (wdata (0 :: 34 :: 119 :: cmd :: args) 3) with (wret cmd). cbn [skipn]. unfold wbind, wret.
  destruct (sysex_handler cmd) as [h|]; [|reflexivity]. destruct (h args s) as [a o|f]; reflexivity.
Qed.

(** Controller 87: the first FM channel of the MIDI channel. *)
Fixpoint kept_calls (c v : Z) (l : list dev) : list dcall :=
  match l with
  | [] => []
  | d :: t => if (d_midi d =? c) && vt_eqb (d_ops d) VFm then [DStoreFrom (d_num d) v] else kept_calls c v t
  end.
Lemma keep_loop c v l : store_from_loop c v l = WDone tt (kept_calls c v l).
Proof. induction l as [|d t IH]; [reflexivity|]. cbn [store_from_loop kept_calls]. destruct (_ && _); [reflexivity|exact IH]. Qed.
Lemma keep_leaves n c v l : (forall j, leaves n (DStoreFrom j v)) -> Forall (leaves n) (kept_calls c v l).
Proof. intros H. induction l as [|d t IH]; [constructor|]. cbn [kept_calls]. destruct (_ && _); [constructor; [apply H|constructor]|exact IH]. Qed.
Lemma keep_eq c v s m : zget (md_ch s) c = Some m ->
  midi_cc c 87 v s = WDone s (kept_calls c v (md_dev s) ++ (if md_cb s then [DChange 2 c 87 v] else [])).
Proof.
  intros Hm. unfold midi_cc, cc_action. rewrite (wget_Some _ _ _ Hm), wbind_ret.
  repeat match goal with |- context [87 =? ?x] => let b := eval vm_compute in (87 =? x) in change (87 =? x) with b end. cbn [orb]. rewrite keep_loop.
  unfold notify_change, wbind, wret. rewrite app_nil_r. destruct (md_cb s); reflexivity.
Qed.
Lemma wdone_calls {A} (a b : A) o p : WDone a o = WDone b p -> o = p.
Proof. congruence. Qed.
Lemma step_leaves n m s s' cs : mop_ok m -> midi_ok s -> ~ rewrites n m -> steps s m s' cs -> Forall (leaves n) cs.
Proof.
  intros Hm Hs R E. assert (M := calls_menu m s _ _ E). unfold rewrites in R.
  assert (V : forall c, voice_call c -> leaves n c) by apply voice_leaves.
  destruct m as [c p v|c p|c k v|c p|c b|data| | |b]; cbn [menu] in M; try (eapply Forall_impl; [|exact M]; exact V).
  - assert (X := E). unfold steps in X. cbn [midi_step] in X. destruct Hm as (Hc & Hk & Hv). destruct (ok_ch_get _ _ Hs Hc) as (mc & Hmc & _).
    destruct (Z.eq_dec k 87) as [->|K].
    + assert (N : v <> n) by (intros ->; apply R; right; left; eauto).
      assert (Y : forall j, leaves n (DStoreFrom j v)) by (intros j d x; cbn; destruct (Z.eqb_spec v n); congruence).
      rewrite (keep_eq _ _ _ _ Hmc) in X. apply wdone_calls in X. rewrite <- X. apply Forall_app. split; [|destruct (md_cb s); repeat constructor].
      apply keep_leaves. exact Y.
    + eapply Forall_impl; [|exact M]. intros x [H|[(t & a & b & d & ->)|[(a & b & ->)|[(-> & _)|[(o & -> & _)|[(_ & b & ->)|(_ & b & ->)]]]]]]; [apply V, H|..]; try contradiction;
        intros ? ?; reflexivity.
  - eapply Forall_impl; [|exact M]. intros x [H|(t & a & b & d & ->)]; [apply V, H|]. intros ? ?; reflexivity.
  - eapply Forall_impl with (P := fun x => menu (MSysex data) x /\ (forall k, is_sysex_cmd k (MSysex data) -> 10 <= k <= 12 -> leaves n x)).
    { intros x [Mx Lx]. cbn [menu] in Mx.
      destruct Mx as [[_ H]|[(_ & l & ->)|[(_ & l & ->)|[(_ & a & b & d & ->)|[(K & _)|[([K|K] & _)|[(_ & j & ->)|(_ & a & j & ->)]]]]]]]; [apply V, H|..];
        try (intros ? ?; reflexivity); apply (Lx _ K); lia. }
    rewrite Forall_forall in M |- *. intros x Hx. split; [apply M, Hx|]. intros k [args EA] Hk. rewrite EA in E, R. unfold steps in E. rewrite own_step in E.
    assert (K : k = 10 \/ k = 11 \/ k = 12) by lia.
    assert (W : wcalls (leaves n) (match sysex_handler k with None => wret s | Some h => h args s end)).
    { destruct K as [->|[->| ->]]; cbn [sysex_handler].
      - unfold fixed_length. destruct (negb _); [apply wcalls_ret|]. apply store_leaves. intros l ->. apply R. do 2 right; left. eauto.
      - apply clear_leaves. intros ->. apply R. do 3 right; left. reflexivity.
      - apply clear_all_leaves. intros ->. apply R. do 4 right. reflexivity. }
    specialize (W _ _ E). rewrite Forall_forall in W. apply W, Hx.
  - contradiction R. left. reflexivity.
  - eapply Forall_impl; [|exact M]. intros x [].
Qed.

(** ** Histories *)
Section Library.
Context (r : rom).

(** The calls of a step of the interface; frames make PSG steps besides. *)
Lemma step_calls op s s' o : app_step r op s = Done tt s' o -> exists cs d o1 o2, steps (a_midi s) (message op) (a_midi s') cs /\
  v_user d = v_user (a_dev s) /\ (dev_inv (a_dev s) -> dev_inv d) /\ (rom_ok r -> psg_good r (v_psg (a_dev s)) -> psg_good r (v_psg d)) /\
  perform_all r (detected s) cs d = Done tt (a_dev s') o2 /\ o = o1 ++ o2 /\ (op <> AFrame -> o1 = [] /\ d = a_dev s).
Proof.
  intros E. assert (A : forall m s s' o, app_midi r (midi_step m) s = Done tt s' o -> exists cs, steps (a_midi s) m (a_midi s') cs /\
    perform_all r (detected s) cs (a_dev s) = Done tt (a_dev s') o).
  { clear. intros m s s' o. unfold app_midi, steps. destruct (midi_step m (a_midi s)) as [m' cs|]; [|discriminate]. intros E. exists cs.
    destruct (perform_all r (detected s) cs (a_dev s)) as [[] d o'|]; [|discriminate]. injection E as <- <-. split; reflexivity. }
  destruct op as [m|]; cbn [app_step message] in *.
  - destruct (A _ _ _ _ E) as (cs & E1 & E2). exists cs, (a_dev s), [], o. auto 10.
  - apply bind_inv in E as ([] & s1 & o1 & o2 & E1 & E2 & ->). destruct (A _ _ _ _ E2) as (cs & E3 & E4).
    unfold app_dev, lift in E1. destruct (ps r PTick (a_dev s)) as [[] d o1'|] eqn:EP; [|discriminate]. injection E1 as <- <-. cbn [a_midi a_dev] in *.
    exists cs, d, o1', o2. split; [exact E3|].
    assert (X := EP). unfold ps, lift in X. destruct (psg_step _ _ PTick (v_psg (a_dev s))) as [[] q oq|] eqn:Eq; [|discriminate]. injection X as <- <-.
    split; [reflexivity|]. split; [intros I; exact I|]. split.
    + intros Hr Hg. destruct (does_ps r Hr PTick (a_dev s) Hg I) as (x & o & (D & _) & G). rewrite EP in D. injection D as <- _. exact G.
    + split; [exact E4|]. split; [reflexivity|]. intros N; contradiction N; reflexivity.
Qed.

Lemma perform_user (Hr : rom_ok r) det n cs : forall s x s' o, dev_inv s -> psg_good r (v_psg s) -> Forall dcall_ok cs -> ~ In DFmInit cs ->
  perform_all r det cs s = Done tt s' o -> zget (v_user s) n = Some x -> Forall (fun c => forall s, user_after s c n x = x) cs ->
  zget (v_user s') n = Some x /\ dev_inv s' /\ psg_good r (v_psg s').
Proof.
  induction cs as [|c t IH]; intros s x s' o Hi Hg Hc Hf E Z L.
  - cbn in E. injection E as <- <-. auto.
  - unfold perform_all in E. cbn [runM] in E. apply bind_inv in E as ([] & s1 & o1 & o2 & E1 & E2 & ->).
    assert (Hf1 : c = DFmInit -> det = false) by (intros ->; exfalso; apply Hf; left; reflexivity).
    assert (Hb : ~ beyond_samples c) by (intros B; rewrite (perform_beyond r Hr det c s B) in E1; discriminate).
    destruct (perform_does r Hr det c s Hi Hg (Forall_inv Hc) Hf1 Hb) as (s1' & o1' & D & F & I1 & G1).
    assert (X := proj1 D). rewrite E1 in X. injection X as <- <-.
    apply (IH s1 x s' o2); [exact I1|exact G1|exact (Forall_inv_tail Hc)|intros X; apply Hf; right; exact X|exact E2| |exact (Forall_inv_tail L)].
    destruct F as (_ & _ & _ & _ & _ & _ & F). rewrite (F n x Z). f_equal. apply (Forall_inv L).
Qed.
(** One call, then others. *)
Lemma perform_split det a : forall c b s s' o, perform_all r det (a ++ c :: b) s = Done tt s' o ->
  exists s1 o1 s2 o2 o3, perform_all r det a s = Done tt s1 o1 /\ perform r det c s1 = Done tt s2 o2 /\ perform_all r det b s2 = Done tt s' o3.
Proof.
  intros c b s s' o. unfold perform_all. rewrite runM_app. intros E. apply bind_inv in E as ([] & s1 & o1 & o2 & E1 & E2 & _).
  cbn [runM] in E2. apply bind_inv in E2 as ([] & s2 & o3 & o4 & E2 & E3 & _). eauto 10.
Qed.

Lemma perform_safe (Hr : rom_ok r) det cs : forall s s' o, dev_inv s -> psg_good r (v_psg s) -> Forall dcall_ok cs -> ~ In DFmInit cs ->
  perform_all r det cs s = Done tt s' o -> dev_inv s' /\ psg_good r (v_psg s').
Proof.
  induction cs as [|c t IH]; intros s s' o Hi Hg Hc Hf E.
  - cbn in E. injection E as <- <-. auto.
  - unfold perform_all in E. cbn [runM] in E. apply bind_inv in E as ([] & s1 & o1 & o2 & E1 & E2 & ->).
    assert (Hf1 : c = DFmInit -> det = false) by (intros ->; exfalso; apply Hf; left; reflexivity).
    assert (Hb : ~ beyond_samples c) by (intros B; rewrite (perform_beyond r Hr det c s B) in E1; discriminate).
    destruct (perform_does r Hr det c s Hi Hg (Forall_inv Hc) Hf1 Hb) as (s1' & o1' & D & F & I1 & G1).
    assert (X := proj1 D). rewrite E1 in X. injection X as <- <-.
    apply (IH s1 s' o2); [exact I1|exact G1|exact (Forall_inv_tail Hc)|intros X; apply Hf; right; exact X|exact E2].
Qed.
(** A call that settles the instrument, among others that do not. *)
Lemma perform_settles (Hr : rom_ok r) det n a c b y s s' o : dev_inv s -> psg_good r (v_psg s) -> Forall dcall_ok (a ++ c :: b) -> ~ In DFmInit (a ++ c :: b) ->
  seven n -> perform_all r det (a ++ c :: b) s = Done tt s' o -> (forall s1 o1 x, perform_all r det a s = Done tt s1 o1 -> user_after s1 c n x = y) ->
  Forall (fun c => forall s, user_after s c n y = y) b -> zget (v_user s') n = Some y.
Proof.
  intros Hi Hg Hc Hf Hn E A B. apply perform_split in E as (s1 & o1 & s2 & o2 & o3 & E1 & E2 & E3).
  apply Forall_app in Hc as [Ha Hc]. assert (Hf1 : ~ In DFmInit a) by (intros X; apply Hf, in_or_app; left; exact X).
  destruct (perform_safe Hr det a _ _ _ Hi Hg Ha Hf1 E1) as [I1 G1].
  assert (Hb : ~ beyond_samples c) by (intros Bc; rewrite (perform_beyond r Hr det c s1 Bc) in E2; discriminate).
  assert (Hf2 : c = DFmInit -> det = false) by (intros ->; exfalso; apply Hf, in_or_app; right; left; reflexivity).
  destruct (perform_does r Hr det c s1 I1 G1 (Forall_inv Hc) Hf2 Hb) as (s2' & o2' & D & F & I2 & G2).
  assert (X := proj1 D). rewrite E2 in X. injection X as <- <-.
  destruct I1 as [(_ & _ & _ & L & _) _]. destruct (zget_in_range (v_user s1) n) as [x Hx]; [rewrite L; exact Hn|].
  destruct F as (_ & _ & _ & _ & _ & _ & F).
  apply (perform_user Hr det n b s2 y s' o3); [exact I2|exact G2|exact (Forall_inv_tail Hc)| |exact E3| |exact B].
  - intros Y. apply Hf, in_or_app. right; right; exact Y.
  - rewrite (F n x Hx). f_equal. exact (A _ _ _ E1).
Qed.

Context (hw : hardware) (mem : list Z).
Lemma history_prefix ops op s tr : history r hw mem (ops ++ [op]) s tr ->
  exists s0 tr0 o, history r hw mem ops s0 tr0 /\ aop_ok op /\ app_step r op s0 = Done tt s o /\ tr = tr0 ++ o.
Proof.
  intros (Hr & Hm & Ho & E). apply Forall_app in Ho as [Ho1 Ho2]. apply boot_snoc in E as (s1 & o1 & o2 & E1 & E2 & ->).
  exists s1, o1, o2. split; [repeat (split; [assumption|]); exact E1|]. split; [exact (Forall_inv Ho2)|]. auto.
Qed.
(** The calls of the last step, well-formed. *)
Lemma last_calls ops op s0 tr0 s o : history r hw mem ops s0 tr0 -> aop_ok op -> app_step r op s0 = Done tt s o ->
  exists cs d o2, steps (a_midi s0) (message op) (a_midi s) cs /\ Forall dcall_ok cs /\ ~ In DFmInit cs /\ midi_ok (a_midi s0) /\
    v_user d = v_user (a_dev s0) /\ dev_inv d /\ psg_good r (v_psg d) /\ perform_all r (detected s0) cs d = Done tt (a_dev s) o2 /\
    (op <> AFrame -> d = a_dev s0).
Proof.
  intros H Ho E. destruct (history_played _ _ _ _ _ _ H) as ((I1 & I2 & I3) & _).
  destruct (step_calls _ _ _ _ E) as (cs & d & o1 & o2 & E1 & E2 & E3 & E4 & E5 & _ & E6). exists cs, d, o2.
  assert (Hm : mop_ok (message op)) by (destruct op; [exact Ho|exact I]).
  assert (W := midi_step_ok (message op) (a_midi s0) I1 Hm). unfold steps in E1. rewrite E1 in W. cbn [wpw] in W. destruct W as [Hc _].
  assert (M := calls_menu _ _ _ _ E1). split; [exact E1|]. split; [exact Hc|]. split.
  { intros X. rewrite Forall_forall in M. destruct (menu_no_init _ _ (M _ X)) as [Y _]. apply Y. reflexivity. }
  split; [exact I1|]. split; [exact E2|]. split; [apply E3, I2|]. split; [apply E4; [apply H|exact I3]|]. split; [exact E5|]. intros N. apply E6, N.
Qed.

Lemma step_user ops op s0 tr0 s o n : history r hw mem ops s0 tr0 -> aop_ok op -> app_step r op s0 = Done tt s o -> seven n ->
  ~ rewrites n (message op) -> zget (v_user (a_dev s)) n = zget (v_user (a_dev s0)) n.
Proof.
  intros H Ho E Hn R. destruct (last_calls _ _ _ _ _ _ H Ho E) as (cs & d & o2 & S & Hc & Hf & I1 & U & I2 & I3 & P & _).
  assert (Hm : mop_ok (message op)) by (destruct op; [exact Ho|exact I]).
  assert (L := step_leaves n _ _ _ _ Hm I1 R S). rewrite <- U.
  assert (X : length (v_user d) = 128%nat) by apply I2. destruct (zget_in_range (v_user d) n) as [x Hx]; [rewrite X; exact Hn|]. rewrite Hx.
  apply (perform_user (proj1 H) (detected s0) n cs d x _ o2); try assumption.
  eapply Forall_impl; [|exact L]. intros c Lc s1. apply Lc.
Qed.
Lemma user_later ops n later : seven n -> forall s tr, history r hw mem (ops ++ later) s tr -> without (rewrites n) later ->
  exists s0 tr0, history r hw mem ops s0 tr0 /\ zget (v_user (a_dev s)) n = zget (v_user (a_dev s0)) n.
Proof.
  intros Hn. induction later as [|op later IH] using rev_ind; intros s tr H W.
  - rewrite app_nil_r in H. eauto.
  - rewrite app_assoc in H. apply history_prefix in H as (s1 & tr1 & o & H1 & Ho & E & _).
    destruct (IH _ _ H1) as (s0 & tr0 & H0 & U). { intros m Hm. apply W, in_or_app. left. exact Hm. }
    exists s0, tr0. split; [exact H0|]. rewrite <- U. apply (step_user _ _ _ _ _ _ _ H1 Ho E Hn).
    destruct op as [m|]; [apply W, in_or_app; right; left; reflexivity|]. intros [X|[(c & X)|[(l & X)|[X|X]]]]; discriminate X.
Qed.

(** Messages that settle the instrument of a program. *)
Lemma settled_user ops m s tr n y : history r hw mem (ops ++ [AMsg m]) s tr -> seven n ->
  (forall s0 s' cs, midi_ok s0 -> steps s0 m s' cs -> exists a c b, cs = a ++ c :: b /\ (forall s x, user_after s c n x = y) /\ Forall (fun c => forall s, user_after s c n y = y) b) ->
  zget (v_user (a_dev s)) n = Some y.
Proof.
  intros H Hn A. apply history_prefix in H as (s0 & tr0 & o & H0 & Ho & E & _).
  destruct (last_calls _ _ _ _ _ _ H0 Ho E) as (cs & d & o2 & S & Hc & Hf & I1 & U & I2 & I3 & P & _).
  destruct (A _ _ _ I1 S) as (a & c & b & -> & C & B). eapply perform_settles; eauto. apply H0.
Qed.
End Library.

Lemma bits_id k x : 0 <= x < 2 ^ k -> bits k x = x.
Proof. intros H. unfold bits. apply Z.mod_small. exact H. Qed.
Lemma store_step n p s : preset_ok p -> midi_step (store_msg n p) s = WDone s [DStore n p].
Proof.
  intros (Ha & Hf & Hm & Hp & L & O). unfold store_msg. rewrite own_step. cbn [sysex_handler].
  destruct p as [al fb am fm ops]. cbn in *. do 4 (destruct ops as [|? ops]; [discriminate L|]). destruct ops; [|discriminate L].
  repeat (apply Forall_cons_iff in O as [? O]).
  unfold op_ok in *. repeat match goal with o : operator |- _ => destruct o as [? ? ? ? ? ? ? ? ? ? ?] end. cbn in H, H0, H1, H2. cbv -[bits].
  repeat match goal with H : _ /\ _ |- _ => destruct H end.
  rewrite !bits_id by (change (2 ^ 1) with 2; change (2 ^ 2) with 4; change (2 ^ 3) with 8; change (2 ^ 4) with 16; change (2 ^ 5) with 32; change (2 ^ 7) with 128; lia).
  reflexivity.
Qed.

(** ** Dumps *)
Lemma dump_step r n s : app_inv r s -> rom_ok r -> seven n ->
  app_step r (AMsg (dump_msg n)) s = Done tt s (reply 14 (preset_data n (instrument r (a_dev s) n))).
Proof.
  intros (I1 & I2 & I3) Hr Hn. cbn [app_step]. unfold app_midi.
  assert (E : midi_step (dump_msg n) (a_midi s) = WDone (a_midi s) [DDumpPreset n]) by (unfold dump_msg; rewrite own_step; reflexivity).
  rewrite E. unfold perform_all. cbn [runM perform]. unfold dump_preset. destruct (Z.leb_spec 128 n); [unfold seven in Hn; lia|].
  unfold bind at 1 2. rewrite (current_eq r Hr) by (exact Hn || apply I2). unfold send_preset_dump, midi_tx_send_sysex. rewrite tx_eq.
  unfold ret. rewrite app_nil_r. unfold reply, preset_data. destruct s as [m d x y]. cbn [a_midi a_dev a_x7 a_pro]. f_equal.
Qed.
Lemma find_first f n : forall a i, a <= i < a + Z.of_nat n -> f i = true -> (forall j, a <= j < i -> f j = false) -> find f (zseq a n) = Some i.
Proof.
  induction n as [|n IH]; intros a i Hi Ht Hf; [lia|]. cbn [zseq find]. destruct (Z.eq_dec a i) as [->|N]; [rewrite Ht; reflexivity|].
  rewrite Hf by lia. apply IH; [lia|exact Ht|intros j Hj; apply Hf; lia].
Qed.
Lemma first_found s c i d : length (md_dev s) = 13%nat -> first_serves s c i d -> deviceChannelByMidiChannel (md_dev s) c = WDone (Some i) [].
Proof.
  intros L [[Hd Hc] Hf]. unfold deviceChannelByMidiChannel, DEV_CHANS. rewrite find_upto by (assumption || lia). f_equal. unfold first_dev, upto.
  assert (Z := zget_Some _ _ _ Hd). rewrite L in Z. apply find_first; [change (Z.of_nat _) with 13; lia|unfold dev_at in Hd; rewrite Hd; apply Z.eqb_eq, Hc|].
  intros j Hj. destruct (zget (md_dev s) j) as [e|] eqn:E; [|reflexivity]. apply Z.eqb_neq. intros C. specialize (Hf j e (conj E C)). lia.
Qed.
Lemma dump_chan_step r c s i d : app_inv r s -> is_chan c -> first_serves (a_midi s) c i d -> d_ops d = VFm -> d_num d = i -> 0 <= i < 6 ->
  app_step r (AMsg (dump_chan_msg c)) s = Done tt s (reply 16 (preset_data c (channel_preset (a_dev s) i))).
Proof.
  intros (I1 & I2 & I3) Hc Hf Ho Hn H6. cbn [app_step]. unfold app_midi.
  assert (E : midi_step (dump_chan_msg c) (a_midi s) = WDone (a_midi s) [DDumpChan c i]).
  { unfold dump_chan_msg. rewrite own_step. cbn [sysex_handler]. unfold fixed_length. cbn [length Z.of_nat Pos.of_succ_nat Pos.succ Z.eqb Pos.eqb negb].
    unfold dump_channel_request. change (wdata [0; c] 0) with (wret 0). change (wdata [0; c] 1) with (wret c). rewrite !wbind_ret.
    unfold MIDI_CHANNELS. destruct (Z.leb_spec 16 c); [unfold is_chan in Hc; lia|]. cbn [Z.eqb].
    rewrite (first_found _ _ _ _ (proj1 I1) Hf). change (WDone (Some i) []) with (wret (Some i)). rewrite wbind_ret, (wget_Some _ _ _ (proj1 (proj1 Hf))), wbind_ret, Ho, Hn. reflexivity. }
  rewrite E. unfold perform_all. cbn [runM perform]. unfold dump_chan.
  unfold bind at 1 2. rewrite extract_eq by (exact H6 || apply I2). unfold send_preset_dump, midi_tx_send_sysex. rewrite tx_eq.
  unfold ret. rewrite app_nil_r. unfold reply, preset_data. destruct s as [m e x y]. cbn [a_midi a_dev a_x7 a_pro]. f_equal.
Qed.
Lemma kept_first c v b d : forall a, (forall e, In e a -> d_midi e <> c) -> d_midi d = c -> d_ops d = VFm -> kept_calls c v (a ++ d :: b) = [DStoreFrom (d_num d) v].
Proof.
  induction a as [|e a IH]; intros N Hc Ho; cbn [kept_calls Datatypes.app].
  - rewrite Hc, Z.eqb_refl, Ho. reflexivity.
  - destruct (Z.eqb_spec (d_midi e) c) as [E|_]; [contradiction (N e (or_introl eq_refl) E)|]. apply IH; auto. intros x Hx. apply N. right. exact Hx.
Qed.
Lemma fm_served s i d : midi_ok s -> dev_at s i d -> d_ops d = VFm -> 0 <= i < 6 /\ d_num d = i.
Proof.
  intros (L & _ & M & _) Hd Hv. assert (Sh : shape_ok i d) by apply (M i d Hd). assert (Z := zget_Some _ _ _ Hd). destruct Sh as (A & B & C). rewrite Hv in B, C.
  destruct (Z_lt_le_dec i 6) as [L0|L0]; [destruct (A L0); split; [lia|assumption]|].
  destruct (Z_lt_le_dec i 10) as [L'|L']; [destruct (B (conj L0 L')); discriminate|destruct (C L'); discriminate].
Qed.

Lemma seven_bytes n p : seven n -> preset_ok p -> Forall seven (preset_data n p) /\ length (preset_data n p) = 50%nat.
Proof.
  intros Hn (Ha & Hf & Hm & Hp & L & O). destruct p as [al fb am fm ops]. cbn in *. do 4 (destruct ops as [|? ops]; [discriminate L|]). destruct ops; [|discriminate L].
  repeat (apply Forall_cons_iff in O as [? O]). unfold preset_data, op_ok, seven in *. split; [|reflexivity].
  cbn [p_alg p_fb p_ams p_fms p_ops flat_map operator_bytes Datatypes.app]. repeat (constructor; [lia|]). constructor.
Qed.
Lemma own_ok cmd args : 0 <= cmd < 128 -> Forall seven args -> (length args <= 252)%nat -> mop_ok (own_sysex cmd args).
Proof. intros Hc Ha L. split; [|cbn; lia]. cbn [Datatypes.app]. unfold seven, MidiSpec.seven in *. do 4 (constructor; [lia|]). exact Ha. Qed.

Section Claims.
Context (r : rom) (hw : hardware) (mem : list Z).
Lemma dump_now ops s tr n p : history r hw mem ops s tr -> seven n -> instrument r (a_dev s) n = p ->
  history r hw mem (ops ++ [AMsg (dump_msg n)]) s (tr ++ reply 14 (preset_data n p)).
Proof.
  intros H Hn <-. destruct (history_played _ _ _ _ _ _ H) as (Hi & _). apply history_snoc with (s := s); [exact H| |apply dump_step; [exact Hi|apply H|exact Hn]].
  apply own_ok; [lia| |cbn; lia]. unfold seven in *. repeat (constructor; [lia|]). constructor.
Qed.

Theorem stored_kept before n p later s tr : seven n -> preset_ok p -> without (rewrites n) later ->
  history r hw mem (before ++ AMsg (store_msg n p) :: later) s tr -> instrument r (a_dev s) n = p.
Proof.
  intros Hn Hp W H. change (AMsg (store_msg n p) :: later) with ([AMsg (store_msg n p)] ++ later) in H. rewrite app_assoc in H.
  destruct (user_later r hw mem _ n later Hn _ _ H W) as (s0 & tr0 & H0 & U). unfold instrument. rewrite U.
  rewrite (settled_user r hw mem before (store_msg n p) s0 tr0 n (Some p) H0 Hn); [reflexivity|].
  intros s1 s' cs _ S. unfold steps in S. rewrite store_step in S by exact Hp. injection S as <- <-. exists [], (DStore n p), [].
  split; [reflexivity|]. split; [intros ? ?; cbn; rewrite Z.eqb_refl; reflexivity|constructor].
Qed.

Lemma restore_calls n m s s' cs : seven n -> restores n m -> midi_ok s -> steps s m s' cs ->
  exists a c b, cs = a ++ c :: b /\ (forall s x, user_after s c n x = None) /\ Forall (fun c => forall s, user_after s c n None = None) b.
Proof.
  intros Hn R Hs S. unfold steps in S. destruct R as [->|[->| ->]].
  - rewrite (ResetProofs.reset_result s Hs) in S. injection S as <- <-. exists [DPsgReset], DFmReset, (DSmReset :: init_calls init_chs (fun _ => true) 0 (md_dev s)).
    split; [reflexivity|]. split; [reflexivity|]. constructor; [reflexivity|]. apply Forall_forall. intros c Hc sx.
    assert (M := calls_menu MReset s _ _ (ResetProofs.reset_result s Hs)). rewrite Forall_forall in M.
    specialize (M c ltac:(apply in_or_app; right; exact Hc)). destruct M as [V|[->|[->| ->]]]; try reflexivity. apply voice_leaves, V.
  - unfold clear_msg in S. rewrite own_step in S. injection S as <- <-. exists [], (DClear n), []. split; [reflexivity|].
    split; [intros ? ?; cbn; rewrite Z.eqb_refl; reflexivity|constructor].
  - unfold clear_all_msg in S. rewrite own_step in S. cbn [sysex_handler] in S. unfold fixed_length in S. cbn [length Z.of_nat Pos.of_succ_nat Z.eqb Pos.eqb negb] in S.
    unfold clear_all_programs in S. change (wdata [0] 0) with (wret 0) in S. rewrite wbind_ret in S. cbn [Z.eqb] in S.
    assert (L : forall l, clear_all_loop l = WDone tt (map DClear l)).
    { induction l as [|i t IH]; [reflexivity|]. cbn [clear_all_loop map]. rewrite IH. reflexivity. }
    rewrite L in S. unfold wbind, wret in S. rewrite app_nil_r in S. apply wdone_calls in S. subst cs.
    assert (Hin : In n (zseq 0 128)). { apply in_zseq. unfold seven in Hn. lia. }
    apply in_split in Hin as (a & b & ->). rewrite map_app. cbn [map]. exists (map DClear a), (DClear n), (map DClear b). split; [reflexivity|].
    split; [intros ? ?; cbn; rewrite Z.eqb_refl; reflexivity|]. apply Forall_forall. intros c Hc sx. apply in_map_iff in Hc as (i & <- & _).
    cbn. destruct (i =? n); reflexivity.
Qed.
Theorem restored_kept before n m later s tr : seven n -> restores n m -> without (rewrites n) later ->
  history r hw mem (before ++ AMsg m :: later) s tr -> instrument r (a_dev s) n = nth (Z.to_nat n) (rom_presets r) no_preset.
Proof.
  intros Hn R W H. change (AMsg m :: later) with ([AMsg m] ++ later) in H. rewrite app_assoc in H.
  destruct (user_later r hw mem _ n later Hn _ _ H W) as (s0 & tr0 & H0 & U). unfold instrument. rewrite U.
  rewrite (settled_user r hw mem before m s0 tr0 n None H0 Hn); [reflexivity|].
  intros s1 s' cs Hs S. exact (restore_calls n m s1 s' cs Hn R Hs S).
Qed.
Theorem factory_kept n ops s tr : seven n -> without (rewrites n) ops ->
  history r hw mem ops s tr -> instrument r (a_dev s) n = nth (Z.to_nat n) (rom_presets r) no_preset.
Proof.
  intros Hn W H. destruct (user_later r hw mem [] n ops Hn s tr H W) as (s0 & tr0 & H0 & U).
  assert (X := presets_forgotten _ _ _ _ _ _ H0 ltac:(intros m []) n Hn). unfold instrument in X |- *. rewrite U. exact X.
Qed.
End Claims.

(** ** From one machine to another *)
(** What an editor sends to store dumped data: the answer with the header's command
    changed from 0x0E or 0x10 to 0x0A (and the second byte, if it is to be kept for
    another program). *)
Theorem resent r hw mem r' hw' mem' ops s tr n before later s' tr' : seven n -> without (rewrites n) later ->
  history r hw mem ops s tr ->
  exists data, history r hw mem (ops ++ [AMsg (dump_msg n)]) s (tr ++ reply 14 data) /\ mop_ok (own_sysex 10 data) /\
    (history r' hw' mem' (before ++ AMsg (own_sysex 10 data) :: later) s' tr' ->
     history r' hw' mem' ((before ++ AMsg (own_sysex 10 data) :: later) ++ [AMsg (dump_msg n)]) s' (tr' ++ reply 14 data)).
Proof.
  intros Hn W H. destruct (history_played _ _ _ _ _ _ H) as ((I1 & I2 & I3) & _).
  assert (Hp : preset_ok (instrument r (a_dev s) n)) by (apply instrument_ok; [apply H|apply I2|exact Hn]).
  exists (preset_data n (instrument r (a_dev s) n)). split; [apply dump_now; [exact H|exact Hn|reflexivity]|]. split.
  - destruct (seven_bytes _ _ Hn Hp) as [S L]. apply own_ok; [lia|exact S|rewrite L; lia].
  - intros H'. apply dump_now; [exact H'|exact Hn|]. exact (stored_kept r' hw' mem' before n _ later s' tr' Hn Hp W H').
Qed.

(** ** Instruments on channels *)
Lemma channel_chan s j : sound_ok s -> 0 <= j < 6 -> channel_preset s j = chan_preset (chn (v_synth s) j).
Proof. intros (Hs & _) Hj. unfold channel_preset. rewrite (zget_chn _ Hs j Hj). reflexivity. Qed.
Lemma chip_preset r hw mem ops s tr j : history r hw mem ops s tr -> without raw_write ops -> 0 <= j < 6 ->
  SoundSpec.plays_preset (ym_regs tr) j (channel_preset (a_dev s) j).
Proof.
  intros H W Hj. destruct (c13_app _ _ _ _ _ _ H W) as [_ M]. destruct (M j Hj) as (ch & Hch & (M1 & M2 & _ & M4 & M5 & M6) & _).
  unfold channel_preset. rewrite Hch. unfold SoundSpec.plays_preset. cbn [p_alg p_fb p_ams p_fms p_ops]. repeat (split; [assumption|]). exact M6.
Qed.

Section Programs.
Context (r : rom) (Hr : rom_ok r).
Definition program_call (n : Z) (c : dcall) : Prop := (exists v m, c = DProgram v m n) \/ exists a b k d, c = DChange a b k d.
Lemma program_loads det n p j cs : 0 <= j < 6 -> seven n -> forall s s' o, dev_inv s -> psg_good r (v_psg s) -> Forall dcall_ok cs -> Forall (program_call n) cs ->
  instrument r s n = p -> perform_all r det cs s = Done tt s' o -> In (DProgram VFm j n) cs \/ channel_preset s j = p -> channel_preset s' j = p.
Proof.
  intros Hj Hn. induction cs as [|c t IH]; intros s s' o Hi Hg Hc Hq Hp E H.
  - cbn in E. injection E as <- <-. destruct H as [[]|H]. exact H.
  - unfold perform_all in E. cbn [runM] in E. apply bind_inv in E as ([] & s1 & o1 & o2 & E1 & E2 & ->).
    assert (Q := Forall_inv Hq). assert (Hf1 : c = DFmInit -> det = false) by (intros ->; destruct Q as [(v & m & [=])|(a & b & k & d & [=])]).
    assert (Hb : ~ beyond_samples c) by (intros B; rewrite (perform_beyond r Hr det c s B) in E1; discriminate).
    destruct (perform_does r Hr det c s Hi Hg (Forall_inv Hc) Hf1 Hb) as (s1' & o1' & D & F & I1 & G1).
    assert (X := proj1 D). rewrite E1 in X. injection X as <- <-.
    assert (U : leaves n c) by (destruct Q as [(v & m & ->)|(a & b & k & d & ->)]; intros ? ?; reflexivity).
    assert (Hp1 : instrument r s1 n = p).
    { destruct F as (_ & _ & _ & _ & _ & _ & F). rewrite <- Hp. unfold instrument. destruct (zget_in_range (v_user s) n) as [x Hx]; [|rewrite (F n x Hx), U, Hx; reflexivity].
      destruct Hi as [(_ & _ & _ & L & _) _]. rewrite L. exact Hn. }
    assert (V := sv_run j (synth_calls r s c) (v_synth s) (v_synth s1) (filter fm_event o1)
      (mkSv (key_state [] j) (vol (v_synth s) j) (c_st (chn (v_synth s) j)) (channel_preset s j) (chip_freq [] j) false false) []).
    destruct V as (_ & _ & V & _); [apply Hi|apply (synth_calls_ok r Hr s c (proj1 Hi) (Forall_inv Hc))|exact Hj|apply D| |].
    { split; [reflexivity|]. split; [reflexivity|]. split; [|intros _; split; reflexivity]. intros _. cbn. symmetry. apply channel_chan; [apply Hi|exact Hj]. }
    assert (Z : c = DProgram VFm j n \/ (c <> DProgram VFm j n /\ forall v, fold_left (sv_step j) (synth_calls r s c) v = v)).
    { destruct Q as [(v & m & ->)|(a & b & k & d & ->)]; [|right; split; [discriminate|reflexivity]].
      destruct v; try (right; split; [discriminate|intros; reflexivity]). destruct (Z.eq_dec m j) as [->|N]; [left; reflexivity|].
      right. split; [congruence|]. intros v. cbn. destruct (Z.eqb_spec m j); [contradiction|reflexivity]. }
    apply (IH s1 s' o2 I1 G1 (Forall_inv_tail Hc) (Forall_inv_tail Hq) Hp1 E2). destruct Z as [->|[N Z]].
    + right. rewrite (channel_chan _ _ (proj1 I1) Hj). cbn [synth_calls fold_left sv_step] in V. rewrite Z.eqb_refl in V. cbn [v_edited v_pre] in V.
      rewrite V by reflexivity. exact Hp.
    + rewrite Z in V. cbn [v_edited v_pre] in V. rewrite (channel_chan _ _ (proj1 I1) Hj), V by reflexivity.
      destruct H as [[->|H]|H]; [contradiction N; reflexivity|left; exact H|right; exact H].
Qed.
End Programs.

Lemma flat_in c h l d x : In d l -> d_midi d = c -> In x (h d) -> In x (flat_map (calls_at c h) l).
Proof. intros Hd Hc Hx. apply in_flat_map. exists d. split; [exact Hd|]. unfold calls_at. rewrite Hc, Z.eqb_refl. exact Hx. Qed.

(** Selecting a program loads its instrument, if the channel was at another. *)
Theorem program_selected r hw mem ops c k n s1 tr1 s tr i d :
  history r hw mem (ops ++ [AMsg (MProgram c k)]) s1 tr1 -> k <> n -> history r hw mem ((ops ++ [AMsg (MProgram c k)]) ++ [AMsg (MProgram c n)]) s tr ->
  serves (a_midi s) c i d -> d_ops d = VFm -> 0 <= i < 6 /\ d_num d = i /\ channel_preset (a_dev s) i = instrument r (a_dev s1) n.
Proof.
  intros H1 N H [Hd Hm] Hv.
  destruct (history_played _ _ _ _ _ _ H) as ((M & _) & _). assert (J := fm_served _ _ _ M Hd Hv).
  split; [apply J|]. split; [apply J|]. destruct J as [Hi Hn].
  assert (P := H). apply history_prefix in P as (s1' & tr1' & o & H1' & Ho & E & ->).
  assert (X : s1' = s1 /\ tr1' = tr1). { destruct H1 as (_ & _ & _ & E1), H1' as (_ & _ & _ & E2). rewrite E1 in E2. injection E2 as <- <-. auto. }
  destruct X as [-> ->]. clear H1'.
  destruct (history_last _ _ _ _ _ _ _ _ _ H1 H) as [Om (cs & S & Pa)].
  destruct (history_played _ _ _ _ _ _ H1) as ((M1 & I1 & G1) & _).
  assert (P1 := H1). apply history_prefix in P1 as (s0 & tr0 & o0 & H0 & Ho0 & E0 & ->).
  destruct (history_last _ _ _ _ _ _ _ _ _ H0 H1) as [Om0 (cs0 & S0 & Pa0)].
  destruct (history_played _ _ _ _ _ _ H0) as ((M0 & _) & _).
  destruct (ok_ch_get _ _ M0 (proj1 Om0)) as (m0 & Hm0 & _). destruct (ok_ch_get _ _ M1 (proj1 Om)) as (m1 & Hm1 & _).
  unfold steps in S0. cbn [midi_step] in S0. rewrite (midi_program_eq _ _ _ _ Hm0) in S0.
  assert (W := midi_step_ok (MProgram c n) (a_midi s1) M1 Om). unfold steps in S. rewrite S in W. cbn [wpw] in W. destruct W as [Hc _].
  cbn [midi_step] in S. rewrite (midi_program_eq _ _ _ _ Hm1) in S.
  assert (D0 : forall d, In d (md_dev (a_midi s1)) -> d_midi d = c -> d_prog d = k).
  { injection S0 as S0 _. intros e He Hc'. rewrite <- S0 in He. cbn [md_dev md_set_dev] in He. apply in_map_iff in He as (f & <- & _).
    unfold at_chan in *. destruct (Z.eqb_spec (d_midi f) c); [reflexivity|contradiction]. }
  assert (D1 : exists e, In e (md_dev (a_midi s1)) /\ d_midi e = c /\ d_ops e = VFm /\ d_num e = i).
  { injection S as S _. unfold dev_at in Hd. rewrite <- S in Hd. cbn [md_dev md_set_dev] in Hd.
    assert (He := MidiCarryProofs.zget_In _ _ _ Hd). apply in_map_iff in He as (f & Ef & Hf). exists f. split; [exact Hf|].
    unfold at_chan in Ef. destruct (Z.eqb_spec (d_midi f) c); rewrite <- Ef in Hm, Hv, Hn; cbn in Hm, Hv, Hn; auto. }
  apply wdone_calls in S.
  refine (program_loads r (proj1 H) _ n _ i cs Hi (proj2 Om) (a_dev s1) _ _ I1 G1 Hc _ eq_refl Pa (or_introl _)).
  - rewrite <- S. apply Forall_app. split; [|destruct (md_cb (a_midi s1)); [constructor; [right; eauto|constructor]|constructor]].
    apply Forall_flat_map, Forall_forall. intros e _. unfold calls_at. destruct (d_midi e =? c); [|constructor]. destruct (d_prog e =? n); [constructor|]. constructor; [left; eauto|constructor].
  - rewrite <- S. apply in_or_app. left. destruct D1 as (e & He & E1 & E2 & E3). apply (flat_in c _ _ e); [exact He|exact E1|].
    rewrite (D0 e He E1). destruct (Z.eqb_spec k n); [contradiction|]. left. rewrite E2, E3. reflexivity.
Qed.

(** A stored instrument, selected. *)
Theorem stored_played r hw mem before n p later c k s tr i d : seven n -> preset_ok p -> k <> n -> without (rewrites n) later ->
  without raw_write (before ++ later) -> history r hw mem (before ++ AMsg (store_msg n p) :: later ++ [AMsg (MProgram c k); AMsg (MProgram c n)]) s tr ->
  serves (a_midi s) c i d -> d_ops d = VFm -> SoundSpec.plays_preset (ym_regs tr) i p.
Proof.
  intros Hn Hp N W R H S V.
  assert (E : before ++ AMsg (store_msg n p) :: later ++ [AMsg (MProgram c k); AMsg (MProgram c n)] =
    ((before ++ AMsg (store_msg n p) :: later) ++ [AMsg (MProgram c k)]) ++ [AMsg (MProgram c n)]) by (rewrite <- !app_assoc; reflexivity).
  rewrite E in H. assert (H' := H). apply history_prefix in H' as (s1 & tr1 & o & H1 & _).
  destruct (program_selected _ _ _ _ _ _ _ _ _ _ _ _ _ H1 N H S V) as (Hi & _ & C).
  assert (X : instrument r (a_dev s1) n = p).
  { rewrite <- app_assoc in H1. apply (stored_kept r hw mem before n p (later ++ [AMsg (MProgram c k)]) s1 tr1 Hn Hp); [|exact H1].
    intros m Hm. apply in_app_or in Hm as [Hm|[[= <-]|[]]]; [exact (W m Hm)|]. intros [Y|[(x & Y)|[(l & Y)|[Y|Y]]]]; discriminate Y. }
  rewrite <- X, <- C. apply (chip_preset _ _ _ _ _ _ i H); [|exact Hi].
  intros m Hm. repeat rewrite in_app_iff in Hm. cbn [In] in Hm.
  assert (Q : In (AMsg m) (before ++ later) \/ m = store_msg n p \/ (exists x, m = MProgram c x)).
  { rewrite in_app_iff. destruct Hm as [[[?|[[= <-]|?]]|[[= <-]|[]]]|[[= <-]|[]]]; eauto. }
  destruct Q as [Q|[->|(x & ->)]]; [exact (R m Q)|intros [(l & Y)|(l & Y)]; discriminate Y|intros [(l & Y)|(l & Y)]; discriminate Y].
Qed.

(** Controller 87 keeps a channel's sound. *)
Theorem sound_kept r hw mem ops s tr c i d n : history r hw mem ops s tr -> is_chan c -> seven n -> first_serves (a_midi s) c i d -> d_ops d = VFm ->
  exists p, history r hw mem (ops ++ [AMsg (dump_chan_msg c)]) s (tr ++ reply 16 (preset_data c p)) /\
    (without raw_write ops -> SoundSpec.plays_preset (ym_regs tr) i p) /\
    forall later s' tr', without (rewrites n) later -> history r hw mem (ops ++ AMsg (MCc c 87 n) :: later) s' tr' ->
      history r hw mem ((ops ++ AMsg (MCc c 87 n) :: later) ++ [AMsg (dump_msg n)]) s' (tr' ++ reply 14 (preset_data n p)).
Proof.
  intros H Hc Hn F V. destruct (history_played _ _ _ _ _ _ H) as (Hi & _). assert (Hi' := Hi). destruct Hi' as (M & _).
  destruct (fm_served _ _ _ M (proj1 (proj1 F)) V) as [H6 Hd]. exists (channel_preset (a_dev s) i). split; [|split].
  - apply history_snoc with (s := s); [exact H| |apply (dump_chan_step r c s i d); assumption].
    apply own_ok; [lia| |cbn; lia]. unfold is_chan, MidiSpec.seven, seven in *. repeat (constructor; [lia|]). constructor.
  - intros W. exact (chip_preset _ _ _ _ _ _ i H W H6).
  - intros later s' tr' W H'. apply dump_now; [exact H'|exact Hn|].
    change (AMsg (MCc c 87 n) :: later) with ([AMsg (MCc c 87 n)] ++ later) in H'. rewrite app_assoc in H'.
    destruct (user_later r hw mem _ n later Hn _ _ H' W) as (s0 & tr0 & H0 & U). unfold instrument. rewrite U.
    enough (X : zget (v_user (a_dev s0)) n = Some (Some (channel_preset (a_dev s) i))) by (rewrite X; reflexivity).
    assert (P := H0). apply history_prefix in P as (s1 & tr1 & o & H1 & Ho & E & ->).
    assert (X : s1 = s /\ tr1 = tr). { destruct H as (_ & _ & _ & E1), H1 as (_ & _ & _ & E2). rewrite E1 in E2. injection E2 as <- <-. auto. }
    destruct X as [-> ->]. clear H1.
    destruct (last_calls _ _ _ _ _ _ _ _ _ H Ho E) as (cs & dv & o2 & S & Hcs & Hf & I1 & _ & I2 & I3 & P & Q). rewrite (Q ltac:(discriminate)) in *.
    cbn [message] in S. unfold steps in S. cbn [midi_step] in S. destruct (ok_ch_get _ _ M Hc) as (mc & Hmc & _). rewrite (keep_eq _ _ _ _ Hmc) in S. apply wdone_calls in S.
    destruct F as [[F1 F2] F3]. assert (F1' := F1). unfold dev_at, zget in F1'. destruct (Z.ltb_spec i 0); [lia|]. apply nth_error_split in F1' as (a & b & Ea & La).
    assert (Na : forall e, In e a -> d_midi e <> c).
    { intros e He Ee. apply In_nth_error in He as [j Hj]. assert (Lj : (j < length a)%nat) by (apply nth_error_Some; congruence).
      assert (Y : i <= Z.of_nat j); [|lia]. apply (F3 _ e). split; [|exact Ee]. unfold dev_at, zget. destruct (Z.ltb_spec (Z.of_nat j) 0); [lia|].
      rewrite Nat2Z.id, Ea, nth_error_app1 by exact Lj. exact Hj. }
    rewrite Ea, (kept_first c n b d a Na F2 V) in S.
    rewrite Hd in S. cbn [Datatypes.app] in S. subst cs.
    apply (perform_settles r (proj1 H) (detected s) n [] (DStoreFrom i n) (if md_cb (a_midi s) then [DChange 2 c 87 n] else []) (Some (channel_preset (a_dev s) i))
      (a_dev s) (a_dev s0) o2 I2 I3 Hcs Hf Hn P).
    + intros s2 o3 x E2. cbn in E2. injection E2 as <- <-. cbn. rewrite Z.eqb_refl. reflexivity.
    + destruct (md_cb (a_midi s)); repeat constructor.
Qed.

(** In static mode that channel is channel [c] itself. *)
Lemma static_first r hw mem ops s tr c : history r hw mem ops s tr -> without remaps ops -> 0 <= c < 6 -> c < 5 \/ without (is_cc 78) ops ->
  exists d, first_serves (a_midi s) c c d /\ d_ops d = VFm.
Proof.
  intros H W Hc Hd. destruct (history_played _ _ _ _ _ _ H) as ((M & _) & cs & B & _).
  assert (St : static_map (a_midi s)).
  { apply (MidiStaticProofs.static_boot _ _ _) with (2 := B). apply Forall_forall. intros m Hin. apply (AppToneProofs.plain_messages remaps ops); [| |exact W|exact Hin].
    - intros [(a & b & [=])|[(a & [=])|[(a & [=])|(t & [=])]]].
    - intros [(a & b & [=])|[(a & [=])|[(a & [=])|(t & [=])]]]. }
  destruct (zget_in_range (md_dev (a_midi s)) c) as [d Hz]; [rewrite (proj1 M); lia|]. exists d. destruct St as [_ St].
  split; [split; [split; [exact Hz|apply St, Hz]|intros j e [Hj He]; rewrite <- He, (St _ _ Hj); lia]|].
  assert (Sh : shape_ok c d) by apply (proj1 (proj2 (proj2 M)) c d Hz). destruct Sh as (A & _). destruct (A ltac:(lia)) as [_ [V|[-> V]]]; [exact V|].
  destruct Hd as [Hd|Hd]; [lia|]. exfalso. refine (no_dac_boot _ _ _ B _ 5 d Hz V). apply Forall_forall. intros m Hin.
  exact (AppToneProofs.plain_messages (is_cc 78) ops (proj1 (AppToneProofs.cc_plain 78)) (proj2 (AppToneProofs.cc_plain 78)) Hd m Hin).
Qed.
Theorem sound_kept_static r hw mem ops s tr c n : history r hw mem ops s tr -> without remaps ops -> 0 <= c < 6 -> c < 5 \/ without (is_cc 78) ops -> seven n ->
  exists p, history r hw mem (ops ++ [AMsg (dump_chan_msg c)]) s (tr ++ reply 16 (preset_data c p)) /\
    (without raw_write ops -> SoundSpec.plays_preset (ym_regs tr) c p) /\
    forall later s' tr', without (rewrites n) later -> history r hw mem (ops ++ AMsg (MCc c 87 n) :: later) s' tr' ->
      history r hw mem ((ops ++ AMsg (MCc c 87 n) :: later) ++ [AMsg (dump_msg n)]) s' (tr' ++ reply 14 (preset_data n p)).
Proof.
  intros H W Hc Hd Hn. destruct (static_first _ _ _ _ _ _ c H W Hc Hd) as (d & F & V). exact (sound_kept r hw mem ops s tr c c d n H ltac:(unfold is_chan; lia) Hn F V).
Qed.

(** The statements about dumps. *)
Theorem stored_dumped r hw mem before n p later s tr : seven n -> preset_ok p -> without (rewrites n) later ->
  history r hw mem (before ++ AMsg (store_msg n p) :: later) s tr ->
  history r hw mem ((before ++ AMsg (store_msg n p) :: later) ++ [AMsg (dump_msg n)]) s (tr ++ reply 14 (preset_data n p)).
Proof. intros Hn Hp W H. apply dump_now; [exact H|exact Hn|exact (stored_kept r hw mem _ _ _ _ _ _ Hn Hp W H)]. Qed.
Theorem restored_dumped r hw mem before n m later s tr : seven n -> restores n m -> without (rewrites n) later ->
  history r hw mem (before ++ AMsg m :: later) s tr ->
  history r hw mem ((before ++ AMsg m :: later) ++ [AMsg (dump_msg n)]) s (tr ++ reply 14 (preset_data n (nth (Z.to_nat n) (rom_presets r) no_preset))).
Proof. intros Hn Hp W H. apply dump_now; [exact H|exact Hn|exact (restored_kept r hw mem _ _ _ _ _ _ Hn Hp W H)]. Qed.
Theorem factory_dumped r hw mem n ops s tr : seven n -> without (rewrites n) ops -> history r hw mem ops s tr ->
  history r hw mem (ops ++ [AMsg (dump_msg n)]) s (tr ++ reply 14 (preset_data n (nth (Z.to_nat n) (rom_presets r) no_preset))).
Proof. intros Hn W H. apply dump_now; [exact H|exact Hn|exact (factory_kept r hw mem _ _ _ _ Hn W H)]. Qed.
