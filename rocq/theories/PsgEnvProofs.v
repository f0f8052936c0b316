(** Playback of envelopes over whole histories. *)
From Verif Require Import Base BaseLemmas PitchModel PitchSpec PitchProofs PsgModel PsgSpec PsgProofs PsgRunProofs PsgClaimsProofs PsgPlayProofs.

Section Env.
Context (pal : bool) (envs : list (list Z)) (Henvs : envs_ok envs).

(** The user buffer holds the last envelope loaded. *)
Definition holds (user : list Z) (e : list Z) : Prop :=
  forall m, (forall j, (j < m)%nat -> nth_error e j <> Some 255) -> (m < length e)%nat -> zget user (Z.of_nat m) = nth_error e m.
Definition tracks (c : Z) (h : list pop) (s : psg) (ch : psgchan) : Prop :=
  g_env ch = asked_program c 0 h /\
  match last_load None h with
  | None => ps_userp s = false
  | Some e => ps_userp s = true /\ holds (ps_user s) e end.

Lemma last_load_snoc op : forall h d, last_load d (h ++ [op]) = last_load (last_load d h) [op].
Proof. induction h as [|x t IH]; intros d; [reflexivity|]. destruct x; cbn [app last_load]; apply IH. Qed.
Lemma asked_program_snoc c op : forall ops d, asked_program c d (ops ++ [op]) = asked_program c (asked_program c d ops) [op].
Proof. induction ops as [|x t IH]; intros d; [reflexivity|]. destruct x; cbn [app asked_program]; apply IH. Qed.

Lemma exec1_env user up c op ch :
  g_env (fst (exec1 pal envs user up (target c op) ch)) = asked_program c (g_env ch) [op].
Proof.
  destruct op; cbn [target asked_program]; try reflexivity.
  - destruct (_ && _); [|reflexivity]. cbn [exec1 cexec]. destruct (settle_fields pal envs user (start up pitch cents vel ch)) as (_&_&_&_&->). reflexivity.
  - destruct (c0 =? c); [|reflexivity]. cbn. destruct (g_on ch); [|reflexivity]. destruct (is_null _); reflexivity.
  - destruct (c0 =? c); [|reflexivity]. cbn. destruct (g_on ch); [|reflexivity]. destruct (is_null _); reflexivity.
  - destruct (c0 =? c); [|reflexivity]. cbn. destruct (g_on ch); [|reflexivity]. destruct (peek _ _ _); reflexivity.
  - destruct (c0 =? c); reflexivity.
  - cbn. destruct (g_on ch); [|reflexivity]. destruct (settle_fields pal envs user (advance envs user ch)) as (_&_&_&_&->).
    destruct (advance_same envs user ch) as (_&_&_&_&_&_&_&_&->&_). reflexivity.
  - destruct (c0 =? c); [|reflexivity]. cbn. destruct (peek _ _ _); reflexivity.
Qed.

Lemma tracks_step ue c h op s ch s' ch' o : psg_inv envs ue s -> pop_ok op -> tracks c h s ch -> cstep pal envs c op s ch s' ch' o -> tracks c (h ++ [op]) s' ch'.
Proof.
  intros Hs Hop [T1 T2] (_ & [_ Est] & -> & _ & HU). split.
  - rewrite asked_program_snoc, <- T1. apply exec1_env.
  - rewrite last_load_snoc. destruct op; cbn [last_load];
    try (destruct HU as [[]|[-> ->]]; exact T2).
    cbn in Est. unfold midi_psg_load_envelope, bind, get in Est.
    destruct Hop as [_ (n & Hn & Hne)]. destruct (first_nat eef n Hne) as (m & Hm & Em & Fm).
    destruct (load_loop_spec m eef 0 (ps_user s) Em Fm) as (u' & E & L & G & F & Cc); try lia; [apply Hs|].
    rewrite E in Est. injection Est as <- _. split; [reflexivity|]. cbn [ps_user]. intros j Hj Hl.
    rewrite <- Cc; [f_equal; lia|]. destruct (Nat.le_gt_cases j m); [assumption|]. destruct (Hj m); [assumption|exact Em].
Qed.

(** Everything known about channel [c] after a history. *)
Definition known (c : Z) (h : list pop) (s : psg) (ch : psgchan) (tr : list event) : Prop :=
  mirror c h s ch tr /\ asked c h ch /\ tracks c h s ch /\ Forall byte (ps_user s).

Lemma load_loop_bytes eef : Forall byte eef -> forall i user u', Forall byte user -> load_loop eef i user = Some u' -> Forall byte u'.
Proof.
  induction 1 as [|b t Hb Ht IH]; intros i user u' Hu E; cbn in E; [discriminate|].
  destruct (zget user i); [|discriminate]. assert (Hz : Forall byte (zset user i b)) by (apply Forall_zset; assumption).
  destruct (b =? EEF_END); [injection E as <-; exact Hz|]. eapply IH; eassumption.
Qed.

Lemma known_step ue c h op s ch s' ch' tr o : psg_inv envs ue s -> pop_ok op -> op <> PReset -> known c h s ch tr ->
  cstep pal envs c op s ch s' ch' o -> known c (h ++ [op]) s' ch' (tr ++ o).
Proof.
  intros Hs Hop Hr (K1 & K2 & K3 & K4) C. split; [eapply mirror_step; eassumption|]. split; [eapply asked_step; eassumption|].
  split; [eapply tracks_step; eassumption|]. destruct C as (_ & [_ Est] & _ & _ & HU).
  destruct HU as [HU|[-> _]]; [|exact K4]. destruct op; cbn in HU; try contradiction.
  cbn in Est. unfold midi_psg_load_envelope, bind, get in Est.
  destruct (load_loop eef 0 (ps_user s)) as [u'|] eqn:El; [|discriminate]. injection Est as <- _. cbn [ps_user].
  eapply load_loop_bytes; [apply Hop|exact K4|exact El].
Qed.

Lemma boot_known c : known c [] boot_state (reset_chan c) [].
Proof.
  split; [apply boot_mirror|]. split; [split; [reflexivity|split; reflexivity]|]. split; [split; reflexivity|].
  apply Forall_forall. intros x Hx. cbn in Hx. unfold byte. assert (x = 0) by (repeat (destruct Hx as [Hx|Hx]; [congruence|]); contradiction). lia.
Qed.

(** What follows for the chip when the position is known. *)
Lemma known_plays ue c h s ch tr b : psg_inv envs ue s -> zget (ps_chans s) c = Some ch -> known c h s ch tr -> sync pal envs (ps_user s) ch ->
  g_on ch = true -> peek envs (ps_user s) (g_step ch) = Some b -> plays pal c h tr (Some b).
Proof.
  intros Hi Hg ((M1 & M2 & M3) & (A1 & A2 & A3) & _ & HB) Sy Ho Hb. destruct (Sy Ho) as (b' & Hb' & Ha & Hf).
  rewrite Hb in Hb'. injection Hb' as <-. destruct (proj2 Hi c ch Hg) as [_ (K1 & K2 & K3 & K4 & K5 & K6 & _)].
  cbn. rewrite M2, M3. split; [rewrite Ha; unfold level_of; rewrite A2, A3; reflexivity|].
  rewrite <- A1, Hf. intros Hr. apply tone_of_total; auto. eapply (peek_byte_rom envs Henvs); [apply Hi|exact HB|exact K3|exact Hb].
Qed.
Lemma known_silent ue c h s ch tr : psg_inv envs ue s -> zget (ps_chans s) c = Some ch -> known c h s ch tr -> g_on ch = false -> plays pal c h tr None.
Proof.
  intros Hi Hg ((M1 & M2 & M3) & _) Ho. cbn. rewrite M2. destruct (proj2 Hi c ch Hg) as [_ K]. apply K. exact Ho.
Qed.

(** After [before] and a note on. *)
Definition base (up : bool) (k : Z) (i : Z) : eptr := if up then EUser i else ERom k i.
Lemma base_next up k i : pnext (base up k i) = base up k (i + 1). Proof. destruct up; reflexivity. Qed.
Lemma base_null up k i : is_null (base up k i) = false. Proof. destruct up; reflexivity. Qed.

Lemma base_peek c h s ch e E : tracks c h s ch -> selected envs c h = Some e ->
  (forall j, 0 <= j < E -> zget e j <> Some 255) -> E < len e ->
  forall i, 0 <= i <= E -> peek envs (ps_user s) (base (ps_userp s) (g_env ch) i) = zget e i.
Proof.
  intros [T1 T2] Hsel Hf HE i Hi. unfold selected in Hsel. destruct (last_load None h) as [e'|].
  - injection Hsel as <-. destruct T2 as [-> Hh]. cbn. unfold len in HE. rewrite <- (Z2Nat.id i) by lia.
    rewrite Hh.
    + unfold zget. destruct (Z.ltb_spec (Z.of_nat (Z.to_nat i)) 0); [lia|]. rewrite Nat2Z.id. reflexivity.
    + intros j Hj Hc. apply (Hf (Z.of_nat j)); [lia|]. unfold zget. destruct (Z.ltb_spec (Z.of_nat j) 0); [lia|]. rewrite Nat2Z.id. exact Hc.
    + lia.
  - rewrite T2. cbn. rewrite T1, Hsel. reflexivity.
Qed.


(** Induction over the part of a history in which only frames move the
    position: [X k ch] is the position after [k] frames. *)
Lemma quiet_run c (user : list Z) (up : bool) (X : Z -> psgchan -> Prop) :
  (forall k ch, 0 <= k -> X k ch -> X (k + 1) (fst (cexec pal envs user up CTick ch))) ->
  (forall k ch op, X k ch -> (match op with CVol _ | CProg _ | CPitch _ _ => True | _ => False end) ->
     X k (fst (cexec pal envs user up op ch))) ->
  forall more ue h k s ch tr, psg_inv envs ue s -> Forall pop_ok more -> (forall op, In op more -> quiet c op) ->
    zget (ps_chans s) c = Some ch -> known c h s ch tr -> sync pal envs (ps_user s) ch -> ps_user s = user -> ps_userp s = up -> 0 <= k -> X k ch ->
    exists ue' s' ch' o, psg_run pal envs more s = Done tt s' o /\ psg_inv envs ue' s' /\ zget (ps_chans s') c = Some ch' /\
      known c (h ++ more) s' ch' (tr ++ o) /\ sync pal envs (ps_user s') ch' /\ ps_user s' = user /\ ps_userp s' = up /\ X (k + ticks more) ch'.
Proof.
  intros XT XO more ue h k s ch tr Hi Hok Hq Hg Hk Hsy HU HP Hk0 HX.
  destruct (run_chan pal envs Henvs c (quiet c)
    (fun hh s ch tr => known c (h ++ hh) s ch tr /\ sync pal envs (ps_user s) ch /\ ps_user s = user /\ ps_userp s = up /\ X (k + ticks hh) ch /\ 0 <= ticks hh))
    with (ops := more) (ue := ue) (hist := @nil pop) (s := s) (ch := ch) (tr := tr)
    as (ue' & s' & ch' & o & E' & Hi' & Hg' & J1 & J2 & J3 & J4 & J5 & J6); auto.
  - clear - XT XO Hk0 Henvs. intros ue hh op s ch s' ch' tr o Hi Hop Hr (Q1 & Q2 & Q3) (J1 & J2 & J3 & J4 & J5 & J6) C.
    assert (HU : ps_user s' = ps_user s /\ ps_userp s' = ps_userp s).
    { destruct C as (_ & _ & _ & _ & [H|H]); [contradiction|exact H]. }
    destruct HU as [HU HP]. assert (TT : ticks (hh ++ [op]) = ticks hh + ticks [op]) by apply ticks_snoc.
    assert (T0 : 0 <= ticks [op]) by (destruct op; cbn; lia).
    split; [rewrite app_assoc; eapply known_step; eassumption|]. split.
    { rewrite HU. destruct C as (Hg & _ & -> & _). eapply exec1_sync; eassumption. }
    split; [congruence|]. split; [congruence|]. split; [|lia]. rewrite TT.
    destruct C as (Hg & _ & -> & _). rewrite J3, J4.
    destruct op; cbn [target release retrigger is_load ticks] in *; rewrite ?Z.add_0_r; try contradiction; try exact J5.
    + destruct (Z.eqb_spec c0 c); [contradiction|exact J5].
    + destruct (Z.eqb_spec c0 c); [contradiction|exact J5].
    + destruct (Z.eqb_spec c0 c); [contradiction|exact J5].
    + destruct (c0 =? c); [|exact J5]. cbn [exec1]. apply XO; [exact J5|exact I].
    + destruct (c0 =? c); [|exact J5]. cbn [exec1]. apply XO; [exact J5|exact I].
    + cbn [exec1]. replace (k + (ticks hh + 1)) with (k + ticks hh + 1) by lia. apply XT; [lia|exact J5].
    + destruct (c0 =? c); [|exact J5]. cbn [exec1]. apply XO; [exact J5|exact I].
  - intros H. destruct (Hq _ H) as (_ & H2 & _). apply H2. exact I.
  - apply Forall_forall. exact Hq.
  - rewrite app_nil_r. cbn. rewrite Z.add_0_r. split; [exact Hk|split; [exact Hsy|split; [exact HU|split; [exact HP|split; [exact HX|lia]]]]].
  - exists ue', s', ch', o. cbn [app] in *. split; [exact E'|split; [exact Hi'|split; [exact Hg'|split; [exact J1|split; [exact J2|split; [exact J3|split; [exact J4|exact J5]]]]]]].
Qed.

(** Boot, [before], note on. *)
Lemma struck before c p ce v e : Forall pop_ok before -> ~ In PReset before -> pop_ok (PNoteOn c p ce v) -> 45 <= p ->
  selected envs c before = Some e ->
  exists ue s0 ch0 s ch o0 o k, psg_run pal envs (PReset :: before) psg0 = Done tt s0 o0 /\ psg_step pal envs (PNoteOn c p ce v) s0 = Done tt s o /\
    psg_inv envs ue s /\ zget (ps_chans s) c = Some ch /\ known c (before ++ [PNoteOn c p ce v]) s ch (o0 ++ o) /\ sync pal envs (ps_user s) ch /\
    k = asked_program c 0 before /\
    (forall E, (forall j, 0 <= j < E -> zget e j <> Some 255) -> E < len e ->
       forall i, 0 <= i <= E -> peek envs (ps_user s) (base (ps_userp s) k i) = zget e i) /\
    ch = fst (settle pal envs (ps_user s) (start (ps_userp s) p ce v ch0)) /\ g_env ch0 = k.
Proof.
  intros Hok Hr Hop Hp Hsel. assert (Hc : is_psg c) by apply Hop.
  destruct (run_chan pal envs Henvs c (fun _ => True) (known c)) with (ops := before) (ue := -1) (hist := @nil pop) (s := boot_state)
    (ch := reset_chan c) (tr := @nil event) as (ue0 & s0 & ch0 & o0 & E0 & Hi0 & Hg0 & K0); auto using always, boot_chan, boot_inv, boot_known.
  { intros. eapply known_step; eassumption. }
  cbn [app] in K0.
  destruct (step_chan pal envs Henvs ue0 (PNoteOn c p ce v) s0 c ch0 Hi0 Hop ltac:(discriminate) Hg0) as (ue & s & ch & o & E & Hi & C).
  assert (HU : ps_user s = ps_user s0 /\ ps_userp s = ps_userp s0).
  { destruct C as (_ & _ & _ & _ & [H|H]); [contradiction|exact H]. }
  destruct HU as [HU HP].
  assert (Hch : ch = fst (settle pal envs (ps_user s) (start (ps_userp s) p ce v ch0))).
  { destruct C as (_ & _ & -> & _). cbn [target]. rewrite Z.eqb_refl, ltb_leb. destruct (Z.leb_spec 45 p); [|lia]. rewrite HU, HP. reflexivity. }
  exists ue, s0, ch0, s, ch, o0, o, (asked_program c 0 before).
  split; [rewrite boot_run by exact Henvs; exact E0|split; [exact E|split; [exact Hi|]]].
  split; [apply C|]. split; [exact (known_step ue0 c before _ s0 ch0 s ch o0 o Hi0 Hop ltac:(discriminate) K0 C)|]. split.
  { rewrite Hch. eapply settle_sync; [apply Hi|]. destruct (proj2 Hi0 c ch0 Hg0) as [_ Kc].
    assert (Hue : ue_ok (ps_user s) (ps_userp s) ue0) by (rewrite HU, HP; apply Hi0).
    assert (P : ptrs_ok envs ue0 (start (ps_userp s) p ce v ch0)) by (eapply start_ptrs; eassumption).
    destruct P as [P1 _]. split; [|discriminate]. cbn in P1 |- *.
    destruct (ps_userp s) eqn:Eu; [|exact P1]. cbn. destruct Hi as [[_ (_ & _ & HUE)] _]. specialize (HUE Eu). lia. }
  split; [reflexivity|]. destruct K0 as (_ & _ & T & _). split; [|split; [exact Hch|apply T]].
  intros E' HfE HlE i Hi'. rewrite HU, HP. rewrite <- (proj1 T). eapply base_peek; eassumption.
Qed.

Lemma start_at up p ce v ch0 : at_ (base up (g_env ch0)) (start up p ce v ch0) true false 0 ENull.
Proof. split; [reflexivity|split; [reflexivity|split; [destruct up; reflexivity|reflexivity]]]. Qed.

Lemma run_cons op t s s1 o1 s2 o2 : psg_step pal envs op s = Done tt s1 o1 -> psg_run pal envs t s1 = Done tt s2 o2 ->
  psg_run pal envs (op :: t) s = Done tt s2 (o1 ++ o2).
Proof. intros H1 H2. unfold psg_run in *. cbn [runM]. unfold bind. rewrite H1, H2. reflexivity. Qed.
Lemma run_app a b s s1 o1 s2 o2 : psg_run pal envs a s = Done tt s1 o1 -> psg_run pal envs b s1 = Done tt s2 o2 ->
  psg_run pal envs (a ++ b) s = Done tt s2 (o1 ++ o2).
Proof.
  revert s o1; induction a as [|x t IH]; intros s o1 H1 H2.
  - unfold psg_run in H1. injection H1 as <- <-. exact H2.
  - unfold psg_run in *. cbn [app runM] in *. unfold bind in *. destruct (psg_step pal envs x s) as [u s' o|f]; [|discriminate].
    destruct (runM (psg_step pal envs) t s') as [u' s'' o'|f] eqn:Et; [|discriminate]. destruct u'. injection H1 as <- <-.
    rewrite (IH s' o' Et H2). rewrite app_assoc. reflexivity.
Qed.

Lemma no_end l x r : Forall data_byte l -> zget (l ++ r) x = Some 255 -> 0 <= x -> len l <= x.
Proof.
  intros F H Hx. destruct (Z.le_gt_cases (len l) x); [assumption|]. rewrite zget_app_l in H by lia.
  destruct (zget_data l x F) as (b & Hb & Hr); [lia|]. rewrite H in Hb. injection Hb as <-. lia.
Qed.
Lemma len_app a b : len (a ++ b) = len a + len b. Proof. unfold len. rewrite app_length. lia. Qed.
Lemma len_cons x l : len (x :: l) = 1 + len l. Proof. unfold len. cbn [length]. lia. Qed.

(** ** Non-looping envelopes *)
Lemma c67_once before c p ce v more pre junk s tr : Forall pop_ok (before ++ PNoteOn c p ce v :: more) -> ~ In PReset before -> 45 <= p ->
  (forall op, In op more -> quiet c op) -> selected envs c before = Some (pre ++ 255 :: junk) -> Forall data_byte pre ->
  psg_run pal envs (PReset :: before ++ PNoteOn c p ce v :: more) psg0 = Done tt s tr ->
  plays pal c (before ++ PNoteOn c p ce v :: more) tr (once pre (ticks more)).
Proof.
  intros Hok Hr Hp Hq Hsel Fpre E. apply Forall_app in Hok. destruct Hok as [Hok1 Hok2]. inversion Hok2 as [|? ? Hop Hokm]; subst.
  destruct (struck before c p ce v _ Hok1 Hr Hop Hp Hsel) as (ue & s0 & ch0 & s1 & ch1 & o0 & o1 & k & E0 & E1 & Hi & Hg & Hk & Hsy & Ek & Hpk & Hch & Henv).
  assert (BP := Hpk (len pre)). pose proof (len_nonneg pre) as Hnn.
  specialize (BP ltac:(intros j Hj Hc; apply (no_end pre) in Hc; [lia|exact Fpre|lia]) ltac:(rewrite len_app, len_cons; pose proof (len_nonneg junk); lia)).
  set (B := base (ps_userp s1) k) in *.
  assert (Bn : forall i, pnext (B i) = B (i + 1)) by (intros; apply base_next).
  assert (Bu : forall i, is_null (B i) = false) by (intros; apply base_null).
  destruct (quiet_run c (ps_user s1) (ps_userp s1) (once_at B pre)) with (more := more) (ue := ue) (h := before ++ [PNoteOn c p ce v]) (k := 0)
    (s := s1) (ch := ch1) (tr := o0 ++ o1) as (ue2 & s2 & ch2 & o2 & E2 & Hi2 & Hg2 & K2 & Sy2 & U2 & P2 & X2); auto; try lia.
  - intros k0 ch H0 HX. eapply once_tick; eauto.
  - intros k0 ch op HX Hx. unfold once_at in *. destruct (k0 <? len pre); [apply at_other; assumption|rewrite on_other; assumption].
  - rewrite Hch. eapply (once_settle pal envs (ps_user s1) B); eauto; [lia|]. unfold B. rewrite <- Henv. apply start_at.
  - assert (R := run_app (PReset :: before) (PNoteOn c p ce v :: more) psg0 s0 o0 s2 (o1 ++ o2) E0 (run_cons _ _ _ _ _ _ _ E1 E2)).
    cbn [app] in R. rewrite E in R. injection R as <- ->. rewrite <- !app_assoc in K2. cbn [app] in K2.
    rewrite Z.add_0_l in X2. unfold once. unfold once_at in X2. assert (Ht : 0 <= ticks more) by (clear; induction more as [|[] t IH]; cbn [ticks]; lia).
    destruct (Z.ltb_spec (ticks more) (len pre)).
    + destruct (zget_data pre (ticks more) Fpre) as (b & Hb & Hrb); [lia|]. rewrite Hb. destruct X2 as (X1 & X2 & X3 & X4).
      eapply known_plays; eauto. rewrite U2, X3, BP, zget_app_l by lia. exact Hb.
    + rewrite zget_none by lia. eapply known_silent; eauto.
Qed.

(** ** Looping envelopes *)

Section Loop.
Context (pre body post junk : list Z) (Fpre : Forall data_byte pre) (Fbody : Forall data_byte body) (Fpost : Forall data_byte post).
Context (Hbody : body <> []).
Notation EE := (len pre + 1 + len body + 1 + len post).

Lemma loop_no_end j : 0 <= j < EE -> zget (loop_env pre body post junk) j <> Some 255.
Proof.
  intros Hj Hc. unfold loop_env in Hc. assert (H1 := no_end _ _ _ Fpre Hc ltac:(lia)).
  replace j with (len pre + (j - len pre)) in Hc by lia. rewrite zget_app_r in Hc by lia.
  destruct (Z.eq_dec (j - len pre) 0) as [E0|N0]; [rewrite E0 in Hc; discriminate|].
  replace (j - len pre) with (1 + (j - len pre - 1)) in Hc by lia. rewrite zget_consS in Hc by lia.
  assert (H2 := no_end _ _ _ Fbody Hc ltac:(lia)).
  replace (j - len pre - 1) with (len body + (j - len pre - 1 - len body)) in Hc by lia. rewrite zget_app_r in Hc by lia.
  destruct (Z.eq_dec (j - len pre - 1 - len body) 0) as [E1|N1]; [rewrite E1 in Hc; discriminate|].
  replace (j - len pre - 1 - len body) with (1 + (j - len pre - 1 - len body - 1)) in Hc by lia. rewrite zget_consS in Hc by lia.
  assert (H3 := no_end _ _ _ Fpost Hc ltac:(lia)). lia.
Qed.
Lemma loop_len : EE < len (loop_env pre body post junk).
Proof. unfold loop_env. rewrite !len_app, !len_cons, !len_app, !len_cons, !len_app, len_cons. pose proof (len_nonneg junk). lia. Qed.

Lemma held_state before c p ce v more : Forall pop_ok (before ++ PNoteOn c p ce v :: more) -> ~ In PReset before -> 45 <= p ->
  (forall op, In op more -> quiet c op) -> selected envs c before = Some (loop_env pre body post junk) ->
  exists ue s ch tr k, psg_run pal envs (PReset :: before ++ PNoteOn c p ce v :: more) psg0 = Done tt s tr /\ psg_inv envs ue s /\
    zget (ps_chans s) c = Some ch /\ known c (before ++ PNoteOn c p ce v :: more) s ch tr /\ sync pal envs (ps_user s) ch /\
    (forall i, 0 <= i <= EE -> peek envs (ps_user s) (base (ps_userp s) k i) = zget (loop_env pre body post junk) i) /\
    held_at (base (ps_userp s) k) pre body (ticks more) ch.
Proof.
  intros Hok Hr Hp Hq Hsel. apply Forall_app in Hok. destruct Hok as [Hok1 Hok2]. inversion Hok2 as [|? ? Hop Hokm]; subst.
  destruct (struck before c p ce v _ Hok1 Hr Hop Hp Hsel) as (ue & s0 & ch0 & s1 & ch1 & o0 & o1 & k & E0 & E1 & Hi & Hg & Hk & Hsy & Ek & Hpk & Hch & Henv).
  assert (BP := Hpk EE loop_no_end loop_len). pose proof (len_nonneg pre) as Hnn.
  assert (Bn : forall i, pnext (base (ps_userp s1) k i) = base (ps_userp s1) k (i + 1)) by (intros; apply base_next).
  assert (Bu : forall i, is_null (base (ps_userp s1) k i) = false) by (intros; apply base_null).
  destruct (quiet_run c (ps_user s1) (ps_userp s1) (held_at (base (ps_userp s1) k) pre body)) with (more := more) (ue := ue) (h := before ++ [PNoteOn c p ce v]) (k := 0)
    (s := s1) (ch := ch1) (tr := o0 ++ o1) as (ue2 & s2 & ch2 & o2 & E2 & Hi2 & Hg2 & K2 & Sy2 & U2 & P2 & X2); auto; try lia.
  - intros k0 ch H0 HX. eapply held_tick with (post := post) (junk := junk); eauto.
  - intros k0 ch op HX Hx. unfold held_at in *. destruct (k0 <? len pre); apply at_other; assumption.
  - rewrite Hch. eapply held_settle_pre with (post := post) (junk := junk); eauto; [lia|]. rewrite <- Henv. apply start_at.
  - assert (R := run_app (PReset :: before) (PNoteOn c p ce v :: more) psg0 s0 o0 s2 (o1 ++ o2) E0 (run_cons _ _ _ _ _ _ _ E1 E2)).
    cbn [app] in R. rewrite <- !app_assoc in K2. cbn [app] in K2. rewrite Z.add_0_l in X2.
    exists ue2, s2, ch2, (o0 ++ o1 ++ o2), k. rewrite U2, P2. rewrite U2 in Sy2. auto 10.
Qed.

Lemma ticks_nn ops : 0 <= ticks ops.
Proof. induction ops as [|[] t IH]; cbn [ticks]; lia. Qed.

Lemma c67_held before c p ce v more s tr : Forall pop_ok (before ++ PNoteOn c p ce v :: more) -> ~ In PReset before -> 45 <= p ->
  (forall op, In op more -> quiet c op) -> selected envs c before = Some (loop_env pre body post junk) ->
  psg_run pal envs (PReset :: before ++ PNoteOn c p ce v :: more) psg0 = Done tt s tr ->
  plays pal c (before ++ PNoteOn c p ce v :: more) tr (held pre body (ticks more)).
Proof.
  intros Hok Hr Hp Hq Hsel E.
  destruct (held_state before c p ce v more Hok Hr Hp Hq Hsel) as (ue & s' & ch & tr' & k & E' & Hi & Hg & Kn & Sy & BP & X).
  rewrite E in E'. injection E' as <- <-. unfold held. unfold held_at in X. pose proof (ticks_nn more). assert (Hn : 0 < len body) by (clear - Hbody; unfold len; destruct body; [contradiction|cbn; lia]).
  pose proof (len_nonneg pre). pose proof (len_nonneg post).
  destruct (Z.ltb_spec (ticks more) (len pre)).
  - destruct (zget_data pre (ticks more) Fpre) as (b & Hb & Hrb); [lia|]. rewrite Hb. destruct X as (X1 & X2 & X3 & X4).
    eapply known_plays; eauto. rewrite X3, BP by lia. unfold loop_env. rewrite zget_app_l by lia. exact Hb.
  - assert (Hm := Z.mod_pos_bound (ticks more - len pre) (len body) Hn). set (q := (ticks more - len pre) mod len body) in *.
    destruct (zget_data body q Fbody) as (b & Hb & Hrb); [lia|]. rewrite Hb. destruct X as (X1 & X2 & X3 & X4).
    eapply known_plays; eauto. rewrite X3, BP by lia. unfold loop_env. replace (len pre + 1 + q) with (len pre + (1 + q)) by lia.
    rewrite zget_app_r, zget_consS, zget_app_l by lia. exact Hb.
Qed.

Lemma c67_released before c p ce v more rel after s tr :
  Forall pop_ok (before ++ PNoteOn c p ce v :: more ++ rel :: after) -> ~ In PReset before -> 45 <= p ->
  (forall op, In op (more ++ after) -> quiet c op) -> release c rel -> selected envs c before = Some (loop_env pre body post junk) ->
  psg_run pal envs (PReset :: before ++ PNoteOn c p ce v :: more ++ rel :: after) psg0 = Done tt s tr ->
  plays pal c (before ++ PNoteOn c p ce v :: more ++ rel :: after) tr (released pre body post (ticks more) (ticks after)).
Proof.
  intros Hok Hr Hp Hq Hrel Hsel E.
  assert (Hl : before ++ PNoteOn c p ce v :: more ++ rel :: after = (before ++ PNoteOn c p ce v :: more) ++ rel :: after).
  { rewrite <- app_assoc. reflexivity. }
  rewrite Hl in *. assert (Hok' := Hok). apply Forall_app in Hok'. destruct Hok' as [Hok1 Hok2]. inversion Hok2 as [|? ? Hokr Hoka]; subst.
  destruct (held_state before c p ce v more Hok1 Hr Hp) as (ue & s1 & ch1 & tr1 & k & E1 & Hi & Hg & Kn & Sy & BP & X); auto.
  { intros op Ho. apply Hq. apply in_or_app. left; exact Ho. }
  assert (Hrr : rel <> PReset) by (intros ->; contradiction).
  destruct (step_chan pal envs Henvs ue rel s1 c ch1 Hi Hokr Hrr Hg) as (ue2 & s2 & ch2 & o2 & E2 & Hi2 & C2).
  assert (HU : ps_user s2 = ps_user s1 /\ ps_userp s2 = ps_userp s1).
  { destruct C2 as (_ & _ & _ & _ & [H|H]); [destruct rel; cbn in *; contradiction|exact H]. }
  destruct HU as [HU HP].
  assert (Et : target c rel = Some COff).
  { destruct rel; cbn in Hrel; try contradiction; subst; cbn; rewrite Z.eqb_refl; reflexivity. }
  assert (Hch2 : ch2 = fst (cexec pal envs (ps_user s1) (ps_userp s1) COff ch1)).
  { destruct C2 as (_ & _ & -> & _). rewrite Et. reflexivity. }
  assert (Kn2 := known_step ue c _ rel s1 ch1 s2 ch2 tr1 o2 Hi Hokr Hrr Kn C2).
  assert (Sy2 : sync pal envs (ps_user s2) ch2).
  { rewrite HU. destruct C2 as (_ & _ & -> & _). eapply exec1_sync; eassumption. }
  set (B := base (ps_userp s1) k) in *.
  assert (Bn : forall i, pnext (B i) = B (i + 1)) by (intros; apply base_next).
  assert (Bu : forall i, is_null (B i) = false) by (intros; apply base_null).
  pose proof (ticks_nn more) as Ht. pose proof (ticks_nn after) as Hta.
  assert (HR := held_release pal envs (ps_user s1) (ps_userp s1) B _ _ Bn Bu BP pre body post junk Fbody Hbody eq_refl eq_refl ch1 (ticks more) Ht X).
  cbv zeta in HR. rewrite <- Hch2 in HR.
  assert (Hn : 0 < len body) by (clear - Hbody; unfold len; destruct body; [contradiction|cbn; lia]). pose proof (len_nonneg pre). pose proof (len_nonneg post).
  assert (Hqa : forall op, In op after -> quiet c op) by (intros op Ho; apply Hq; apply in_or_app; right; exact Ho).
  assert (Hg2 : zget (ps_chans s2) c = Some ch2) by apply C2.
  unfold released. destruct (Z.ltb_spec (ticks more) (len pre)).
  - destruct (quiet_run c (ps_user s2) (ps_userp s2) (fun _ ch => g_on ch = false)) with (more := after) (ue := ue2) (h := (before ++ PNoteOn c p ce v :: more) ++ [rel]) (k := 0)
      (s := s2) (ch := ch2) (tr := tr1 ++ o2) as (ue3 & s3 & ch3 & o3 & E3 & Hi3 & Hg3 & K3 & Sy3 & U3 & P3 & X3); auto; try lia.
    + intros k0 ch _ Ho. cbn. rewrite Ho. exact Ho.
    + intros k0 ch op Ho Hx. rewrite on_other; assumption.
    + assert (R := run_app (PReset :: before ++ PNoteOn c p ce v :: more) (rel :: after) psg0 s1 tr1 s3 (o2 ++ o3) E1 (run_cons _ _ _ _ _ _ _ E2 E3)).
      cbn [app] in R. rewrite E in R. injection R as <- ->. rewrite <- (app_assoc _ [rel] after) in K3. cbn [app] in K3. rewrite <- (app_assoc tr1) in K3.
      eapply known_silent; eauto.
  - assert (Hm := Z.mod_pos_bound (ticks more - len pre) (len body) Hn). set (q := (ticks more - len pre) mod len body) in *.
    assert (BP2 : forall i, 0 <= i <= EE -> peek envs (ps_user s2) (B i) = zget (loop_env pre body post junk) i) by (rewrite HU; exact BP).
    destruct (quiet_run c (ps_user s2) (ps_userp s2) (rel_at B pre body post)) with (more := after) (ue := ue2) (h := (before ++ PNoteOn c p ce v :: more) ++ [rel]) (k := q)
      (s := s2) (ch := ch2) (tr := tr1 ++ o2) as (ue3 & s3 & ch3 & o3 & E3 & Hi3 & Hg3 & K3 & Sy3 & U3 & P3 & X3); auto; try lia.
    + intros k0 ch H2 HX. eapply rel_tick with (junk := junk); eauto.
    + intros k0 ch op HX Hx. unfold rel_at in *. destruct (k0 <? len body); [apply at_other; assumption|].
      destruct (k0 <? len body + len post); [apply at_other; assumption|rewrite on_other; assumption].
    + assert (R := run_app (PReset :: before ++ PNoteOn c p ce v :: more) (rel :: after) psg0 s1 tr1 s3 (o2 ++ o3) E1 (run_cons _ _ _ _ _ _ _ E2 E3)).
      cbn [app] in R. rewrite E in R. injection R as <- ->. rewrite <- (app_assoc _ [rel] after) in K3. cbn [app] in K3. rewrite <- (app_assoc tr1) in K3.
      assert (BP3 : forall i, 0 <= i <= EE -> peek envs (ps_user s) (B i) = zget (loop_env pre body post junk) i) by (rewrite U3; exact BP2).
      unfold once. unfold rel_at in X3. set (x := q + ticks after) in *.
      destruct (Z.ltb_spec x (len body)); [|destruct (Z.ltb_spec x (len body + len post))].
      * destruct (zget_data body x Fbody) as (b & Hb & Hrb); [lia|]. rewrite zget_app_l, Hb by lia. destruct X3 as (X1 & X2 & X3 & X4).
        eapply known_plays; eauto. rewrite X3, BP3 by lia. unfold loop_env. replace (len pre + 1 + x) with (len pre + (1 + x)) by lia.
        rewrite zget_app_r, zget_consS, zget_app_l by lia. exact Hb.
      * destruct (zget_data post (x - len body) Fpost) as (b & Hb & Hrb); [lia|].
        replace (zget (body ++ post) x) with (Some b); [|rewrite <- Hb; replace x with (len body + (x - len body)) at 2 by lia; rewrite zget_app_r by lia; reflexivity].
        destruct X3 as (X1 & X2 & X3 & X4). eapply known_plays; eauto. rewrite X3, BP3 by lia. unfold loop_env.
        replace (len pre + 1 + len body + 1 + (x - len body)) with (len pre + (1 + (len body + (1 + (x - len body))))) by lia.
        rewrite zget_app_r, zget_consS, zget_app_r, zget_consS, zget_app_l by lia. exact Hb.
      * rewrite zget_none by (rewrite len_app; lia). eapply known_silent; eauto.
Qed.
End Loop.
End Env.

(** ** The ROM table *)
Lemma rom_members e : In e ENVELOPES -> e = ENVELOPE_0 \/ e = ENV_SQUARE_LEAD.
Proof.
  unfold ENVELOPES. rewrite !in_app_iff. intros [H|[[H|[]]|[H|[[H|[]]|[H|[[H|[]]|H]]]]]];
  try (apply repeat_spec in H; left; exact H); right; symmetry; exact H.
Qed.
Lemma rom_envs_ok : envs_ok ENVELOPES.
Proof.
  split; [reflexivity|]. apply Forall_forall. intros e He. destruct (rom_members e He) as [-> | ->]; (split;
  [repeat (apply Forall_cons; [unfold byte; cbv; intuition discriminate|]); apply Forall_nil|cbn; tauto]).
Qed.

Lemma c25_rom pal ops rel more c s tr : Forall pop_ok (ops ++ rel :: more) -> ~ In PReset (ops ++ rel :: more) ->
  release c rel -> (forall op, In op more -> ~ retrigger c op) -> 256 <= ticks more ->
  psg_run pal ENVELOPES (PReset :: ops ++ rel :: more) psg0 = Done tt s tr ->
  chip_att att_at_boot tr c = 15.
Proof.
  intros Hok Hnr Hrel Hno Ht E. assert (Hok1 : Forall pop_ok ops) by (apply Forall_app in Hok; apply Hok).
  destruct (c24 pal ENVELOPES rom_envs_ok ops Hok1) as (s0 & tr0 & E0 & HL & Hin).
  assert (Hc : is_psg c).
  { apply Forall_app in Hok. destruct Hok as [_ Hok2]. inversion Hok2 as [|? ? Hr _]; subst.
    destruct rel; cbn in Hrel; try contradiction; subst; exact Hr. }
  destruct (zget_in_range (ps_chans s0) c) as [ch0 Hg]; [rewrite HL; unfold is_psg in Hc; lia|].
  destruct (Hin c ch0 Hg) as [Hi _].
  assert (R : exists n, remaining ENVELOPES (g_step ch0) n /\ n <= 255).
  { destruct (g_step ch0) as [|i|k i]; cbn in Hi; [contradiction| |].
    - exists (255 - i). cbn. lia.
    - destruct Hi as (e & He & Hr & _ & n & Hn & Hg255). exists (n - i). cbn. rewrite He.
      replace (i + (n - i)) with n by lia. split; [split; [lia|exact Hg255]|].
      assert (Hm : In e ENVELOPES).
      { unfold zget in He. destruct (k <? 0); [discriminate|]. eapply nth_error_In; exact He. }
      apply zget_Some in Hg255. destruct (rom_members e Hm) as [-> | ->]; cbn in Hg255; lia. }
  destruct R as (n & HR & Hn).
  eapply (c25_loads pal ENVELOPES rom_envs_ok) with (n := n); try eassumption. right. split; [exact HR|lia].
Qed.

Lemma c66_only pal envs : envs_ok envs -> forall ops c s tr,
    Forall pop_ok ops -> ~ In PReset ops -> Forall (fun op => ~ is_load op) ops -> is_psg c ->
    psg_run pal envs (PReset :: ops) psg0 = Done tt s tr ->
    exists ch, zget (ps_chans s) c = Some ch /\
      (g_on ch = true -> exists b, peek envs (ps_user s) (g_step ch) = Some b /\
         (0 <= asked_pitch c 0 ops + nth (Z.to_nat (b / 16)) shift_cents 0 < 25600 ->
          chip_tone tone_at_boot tr c = psg_tone pal (asked_pitch c 0 ops + nth (Z.to_nat (b / 16)) shift_cents 0))).
Proof.
  intros He ops c s tr H1 H2 H3 H4 H5. destruct (c11_c66 pal envs He ops c s tr H1 H2 H3 H4 H5) as (ch & Hg & _ & H).
  exists ch. split; [exact Hg|]. intros Ho. destruct (H Ho) as (b & Hb & _ & _ & Ht). exists b. auto.
Qed.

(** ** Reset while sounding *)
Lemma tick_idle pal envs s : (forall c ch, zget (ps_chans s) c = Some ch -> g_on ch = false) -> length (ps_chans s) = 4%nat ->
  psg_step pal envs PTick s = Done tt s [].
Proof.
  intros H L. destruct s as [cs u up]. cbn in L, H. destruct cs as [|c0 [|c1 [|c2 [|c3 [|]]]]]; try discriminate.
  assert (H0 := H 0 c0 eq_refl). assert (H1 := H 1 c1 eq_refl). assert (H2 := H 2 c2 eq_refl). assert (H3 := H 3 c3 eq_refl).
  assert (T : forall c, g_on c = false -> chan_tick pal envs u c = Done tt c []).
  { intros c Hc. unfold chan_tick, bind, get. rewrite Hc. reflexivity. }
  cbn [psg_step]. unfold midi_psg_tick. cbn [forM]. unfold bind, on_chan. cbn [ps_chans ps_user ps_userp].
  change (zget [c0; c1; c2; c3] 0) with (Some c0). cbv beta iota. rewrite (T c0 H0). cbn [ps_chans ps_user ps_userp].
  change (zset [c0; c1; c2; c3] 0 c0) with [c0; c1; c2; c3].
  change (zget [c0; c1; c2; c3] 1) with (Some c1). cbv beta iota. rewrite (T c1 H1). cbn [ps_chans ps_user ps_userp].
  change (zset [c0; c1; c2; c3] 1 c1) with [c0; c1; c2; c3].
  change (zget [c0; c1; c2; c3] 2) with (Some c2). cbv beta iota. rewrite (T c2 H2). cbn [ps_chans ps_user ps_userp].
  change (zset [c0; c1; c2; c3] 2 c2) with [c0; c1; c2; c3].
  change (zget [c0; c1; c2; c3] 3) with (Some c3). cbv beta iota. rewrite (T c3 H3). reflexivity.
Qed.
Lemma ticks_idle pal envs n s : (forall c ch, zget (ps_chans s) c = Some ch -> g_on ch = false) -> length (ps_chans s) = 4%nat ->
  psg_run pal envs (repeat PTick n) s = Done tt s [].
Proof.
  intros H L. induction n as [|n IH]; [reflexivity|]. unfold psg_run in *. cbn [repeat runM]. unfold bind.
  rewrite tick_idle by assumption. rewrite IH. reflexivity.
Qed.

Lemma c27_refuted pal (frames : nat) :
    exists s tr ch, psg_run pal ENVELOPES (PReset :: [PNoteOn 0 69 0 127; PReset; PNoteOff 0 69] ++ repeat PTick frames) psg0 = Done tt s tr /\
      zget (ps_chans s) 0 = Some ch /\ g_on ch = false /\ g_att ch = 15 /\ chip_att att_at_boot tr 0 = 0.
Proof.
  assert (E : exists tr, psg_run pal ENVELOPES [PReset; PNoteOn 0 69 0 127; PReset; PNoteOff 0 69] psg0 = Done tt boot_state tr /\ chip_att att_at_boot tr 0 = 0).
  { destruct pal; (eexists; split; [vm_compute; reflexivity|vm_compute; reflexivity]). }
  destruct E as (tr & E & Ha).
  assert (Hoff : forall c ch, zget (ps_chans boot_state) c = Some ch -> g_on ch = false).
  { intros c ch Hc. assert (R := zget_Some _ _ _ Hc). cbn in R. rewrite boot_chan in Hc by (unfold is_psg; lia). injection Hc as <-. reflexivity. }
  assert (T := ticks_idle pal ENVELOPES frames boot_state Hoff eq_refl).
  exists boot_state, (tr ++ []), (reset_chan 0). split; [exact (run_app pal ENVELOPES _ _ _ _ _ _ _ E T)|].
  rewrite app_nil_r. split; [reflexivity|split; [reflexivity|split; [reflexivity|exact Ha]]].
Qed.
