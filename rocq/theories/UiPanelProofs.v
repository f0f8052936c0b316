(** The FM parameter panel of ui_fm.c. *)
From Coq Require Import String Ascii.
From Verif Require Import Base BaseLemmas SynthModel MidiModel MidiSpec DevModel AppModel UiModel UiSpec UiProofs.

(** ** Places in the panel: where each value is drawn, 0 elsewhere. *)
Definition pbox (x y : Z) : Z :=
  if y =? 3 then (if (22 <=? x) && (x <=? 23) then 1 else if (29 <=? x) && (x <=? 30) then 2 else 0)
  else if y =? 5 then (if (23 <=? x) && (x <=? 24) then 3 else if (29 <=? x) && (x <=? 30) then 4 else 0)
  else if y =? 6 then (if (23 <=? x) && (x <=? 26) then 5 else 0)
  else if y =? 7 then (if (23 <=? x) && (x <=? 27) then 6 else 0)
  else if y =? 8 then (if (23 <=? x) && (x <=? 26) then 7 else if (31 <=? x) && (x <=? 34) then 8 else 0)
  else if (11 <=? y) && (y <=? 21) && (23 <=? x) && (x <=? 38) && negb ((x - 23) mod 4 =? 3) then 100 + 4 * (y - 11) + (x - 23) / 4
  else 0.
Lemma pbox_panel x y : pbox x y <> 0 -> region x y = PANEL.
Proof.
  intros H. region_tac. destruct (pbox x y) eqn:E; [contradiction| |];
    unfold pbox in E; repeat match type of E with context [if ?b then _ else _] => let F := fresh in destruct b eqn:F; try lia end; decide_all.
Qed.
Definition field_place (f : field) : Z * Z := (1 + (FM_HEADING_X + k_x f + k_off f), 1 + (BASE_Y + k_y f)).
Lemma fits_len t u : fits t = Some u -> (List.length u <= 2)%nat.
Proof. unfold fits. destruct (Nat.leb_spec (List.length t) 2); [|discriminate]. intros [= <-]. assumption. Qed.
Lemma lfo_five : Forall (fun t => List.length t = 5%nat) LFO_TEXT. Proof. repeat constructor. Qed.
Lemma fms_four : Forall (fun t => List.length t = 4%nat) FMS_TEXT. Proof. repeat constructor. Qed.
Lemma ams_four : Forall (fun t => List.length t = 4%nat) AMS_TEXT. Proof. repeat constructor. Qed.
Lemma stereo_four v : List.length (stereo_text v) = 4%nat. Proof. unfold stereo_text. decide_all; reflexivity. Qed.

Lemma eight i : 0 <= i < 8 -> i = 0 \/ i = 1 \/ i = 2 \/ i = 3 \/ i = 4 \/ i = 5 \/ i = 6 \/ i = 7. Proof. lia. Qed.
Lemma field_box i f v t k : zget fmFields i = Some f -> k_format f v = Some t -> 0 <= k < Z.of_nat (List.length t) ->
  pbox (fst (field_place f) + k) (snd (field_place f)) = i + 1.
Proof.
  intros Hf Ht Hk. assert (R := zget_Some _ _ _ Hf).
  destruct (eight i R) as [-> | [-> | [-> | [-> | [-> | [-> | [-> | ->]]]]]]]; cbn in Hf; injection Hf as <-; cbn [k_format] in Ht;
    cbn [field_place fst snd k_x k_off k_y FM_HEADING_X BASE_Y].
  1,2,3,4: apply fits_len in Ht; unfold pbox, FM_HEADING_X, BASE_Y; cbn; decide_all.
  - injection Ht as <-. rewrite stereo_four in Hk. unfold pbox, FM_HEADING_X, BASE_Y; cbn. decide_all.
  - rewrite (Forall_zget _ _ _ _ lfo_five Ht) in Hk. unfold pbox, FM_HEADING_X, BASE_Y; cbn. decide_all.
  - rewrite (Forall_zget _ _ _ _ fms_four Ht) in Hk. unfold pbox, FM_HEADING_X, BASE_Y; cbn. decide_all.
  - rewrite (Forall_zget _ _ _ _ ams_four Ht) in Hk. unfold pbox, FM_HEADING_X, BASE_Y; cbn. decide_all.
Qed.
Definition op_text (v : Z) : list Z := pad 3 (dec v).
Lemma op_len v : List.length (op_text v) = 3%nat.
Proof. unfold op_text, pad. rewrite app_length, repeat_length. assert (L := dec_len v). lia. Qed.
Lemma op_box i op k : 0 <= i < 11 -> 0 <= op < 4 -> 0 <= k < 3 -> pbox (1 + (OP_HEADING_X + 4 + op * 4) + k) (1 + (OP_BASE_Y + i + 1)) = 100 + 4 * i + op.
Proof.
  intros Hi Ho Hk. unfold pbox, OP_HEADING_X, FM_HEADING_X, OP_BASE_Y, BASE_Y.
  replace ((1 + (18 + 4 + op * 4) + k - 23) mod 4) with k.
  2: { replace (1 + (18 + 4 + op * 4) + k - 23) with (k + op * 4) by lia. rewrite Z.mod_add by lia. symmetry. apply Z.mod_small. lia. }
  replace ((1 + (18 + 4 + op * 4) + k - 23) / 4) with op.
  2: { replace (1 + (18 + 4 + op * 4) + k - 23) with (k + op * 4) by lia. rewrite Z.div_add by lia. rewrite Z.div_small; lia. }
  decide_all.
Qed.

(** ** What the panel shows *)
Definition field_cells (scr : Z -> Z -> Z) (i v : Z) : Prop :=
  exists f t, zget fmFields i = Some f /\ k_format f v = Some t /\ text_at scr t (fst (field_place f)) (snd (field_place f)).
Definition op_cells (scr : Z -> Z -> Z) (i op v : Z) : Prop :=
  text_at scr (op_text v) (1 + (OP_HEADING_X + 4 + op * 4)) (1 + (OP_BASE_Y + i + 1)).
Definition heads (scr : Z -> Z -> Z) : Prop := Forall (fun h : Z * Z * string => text_at scr (str (snd h)) (fst (fst h)) (snd (fst h))) panel_headings.
(** [scr'] differs from [scr] in the boxes [P] only. *)
Definition boxes (P : Z -> Prop) (scr scr' : Z -> Z -> Z) : Prop := forall x y, ~ P (pbox x y) -> scr' x y = scr x y.
Lemma boxes_trans P a b c : boxes P a b -> boxes P b c -> boxes P a c.
Proof. intros H1 H2 x y H. rewrite H2, H1; auto. Qed.
Lemma boxes_sub (P Q : Z -> Prop) a b : boxes P a b -> (forall k, P k -> Q k) -> boxes Q a b.
Proof. intros H I x y Hn. apply H. intros Hi. apply Hn, I, Hi. Qed.
Lemma boxes_panel (P : Z -> Prop) a b : boxes P a b -> ~ P 0 -> only [PANEL] a b.
Proof.
  intros H H0 x y Hn. apply H. intros Hp. destruct (Z.eq_dec (pbox x y) 0) as [E|N]; [rewrite E in Hp; auto|].
  apply Hn. left. symmetry. apply pbox_panel, N.
Qed.
Lemma field_kept P a b i v : boxes P a b -> ~ P (i + 1) -> field_cells a i v -> field_cells b i v.
Proof.
  intros H N (f & t & Hf & Ht & T). exists f, t. split; [exact Hf|]. split; [exact Ht|]. intros k c Hk.
  rewrite H; [apply T, Hk|]. rewrite (field_box i f v t k Hf Ht); [exact N|]. eapply zget_Some; eassumption.
Qed.
Lemma op_kept P a b i op v : 0 <= i < 11 -> 0 <= op < 4 -> boxes P a b -> ~ P (100 + 4 * i + op) -> op_cells a i op v -> op_cells b i op v.
Proof.
  intros Hi Ho H N T k c Hk. rewrite H; [apply T, Hk|]. assert (R := zget_Some _ _ _ Hk). rewrite op_len in R. rewrite op_box by lia. exact N.
Qed.
Lemma text_cells scr t x y : map (fun k => scr (x + k) y) (zseq 0 (List.length t)) = t -> text_at scr t x y.
Proof.
  intros H k c Hk. assert (R := zget_Some _ _ _ Hk). assert (Z := zget_map (fun k => scr (x + k) y) (zseq 0 (List.length t)) k).
  rewrite H, Hk in Z. destruct (zget (zseq 0 (List.length t)) k) as [j|] eqn:E; [|discriminate].
  assert (j = k); [|congruence].
  clear - E R. revert E. generalize (List.length t) as n. intros n. replace k with (0 + k) at 2 by lia. generalize 0 as a. 
  assert (G : forall n a m, nth_error (zseq a n) m = Some j -> j = a + Z.of_nat m).
  { clear. induction n as [|n IH]; intros a [|m] H; cbn in H; try discriminate; [injection H; lia|]. apply IH in H. lia. }
  intros a E. unfold zget in E. destruct (Z.ltb_spec k 0); [discriminate|]. apply G in E. lia.
Qed.
Lemma head_box : Forall (fun h : Z * Z * string => Forall (fun k => pbox (fst (fst h) + k) (snd (fst h)) = 0 /\ region (fst (fst h) + k) (snd (fst h)) = PANEL)
  (zseq 0 (List.length (str (snd h))))) panel_headings.
Proof. repeat constructor. Qed.
Lemma in_zseq0 n k : 0 <= k < Z.of_nat n -> In k (zseq 0 n).
Proof. intros H. apply in_zseq. lia. Qed.
Lemma heads_kept P a b : boxes P a b -> ~ P 0 -> heads a -> heads b.
Proof.
  intros H N Hh. unfold heads in *. assert (B := head_box). rewrite Forall_forall in *. intros h Hi k c Hk.
  specialize (B h Hi). rewrite Forall_forall in B. rewrite H; [apply (Hh h Hi), Hk|].
  destruct (B k) as [-> _]; [apply in_zseq0; eapply zget_Some; eassumption|exact N].
Qed.
Lemma heads_only l a b : only l a b -> ~ In PANEL l -> heads a -> heads b.
Proof.
  intros H N Hh. unfold heads in *. assert (B := head_box). rewrite Forall_forall in *. intros h Hi k c Hk.
  specialize (B h Hi). rewrite Forall_forall in B. rewrite H; [apply (Hh h Hi), Hk|].
  destruct (B k) as [_ ->]; [apply in_zseq0; eapply zget_Some; eassumption|exact N].
Qed.
Lemma only_boxes l a b : only l a b -> ~ In PANEL l -> boxes (fun k => k = 0) a b.
Proof. intros H N x y Hn. apply H. rewrite pbox_panel by exact Hn. exact N. Qed.

(** ** Headings *)
Definition heads_scr (scr : Z -> Z -> Z) : Z -> Z -> Z :=
  fold_left (fun s (h : Z * Z * string) => put_cells s (str (snd h)) (fst (fst h)) (snd (fst h)))
    (skipn 8 panel_headings ++ firstn 8 panel_headings) scr.
Lemma headings_eq u : print_channel_parameter_headings u = Done tt (set_scr u (heads_scr (u_scr u))) [].
Proof. destruct u. reflexivity. Qed.
Lemma heads_drawn scr : heads (heads_scr scr).
Proof. repeat apply Forall_cons; try apply Forall_nil; apply text_cells; reflexivity. Qed.
Lemma heads_place scr : only [PANEL] scr (heads_scr scr).
Proof.
  unfold heads_scr. assert (B : Forall (fun h : Z * Z * string => Forall (fun k => region (fst (fst h) + k) (snd (fst h)) = PANEL)
    (zseq 0 (List.length (str (snd h))))) (skipn 8 panel_headings ++ firstn 8 panel_headings)) by (repeat constructor).
  revert scr B. generalize (skipn 8 panel_headings ++ firstn 8 panel_headings) as l. induction l as [|h l IH]; intros scr B; [apply only_refl|].
  inversion B as [|? ? B1 B2]; subst. cbn [fold_left]. eapply only_trans; [|apply IH, B2].
  intros x y Hn. apply put_other. intros -> Hx. apply Hn. left. symmetry. rewrite Forall_forall in B1.
  replace x with (fst (fst h) + (x - fst (fst h))) by lia. apply B1. apply in_zseq0. lia.
Qed.

(** ** Values *)
Definition upto (force : bool) (i : Z) (values vals : list Z) (scr : Z -> Z -> Z) : Prop :=
  List.length vals = 8%nat /\
  forall j v, zget vals j = Some v -> (j < i -> zget values j = Some v) /\ (j < i \/ force = false -> field_cells scr j v).
Lemma fields_wp (E : Prop) values force u :
  upto force 0 values (q_vals (u_panel u)) (u_scr u) -> List.length values = 8%nat ->
  (forall i f v, zget fmFields i = Some f -> zget values i = Some v -> k_format f v <> None) ->
  wp (forM (zseq 0 8) (fun i => update_field_if_changed i values force)) u (fun _ u' =>
    u' = set_panel (set_scr u (u_scr u')) (q_set_vals (u_panel u) values) /\
    boxes (fun k => 1 <= k <= 8) (u_scr u) (u_scr u') /\ (forall j v, zget values j = Some v -> field_cells (u_scr u') j v)) E.
Proof.
  intros U0 Lv Hf.
  eapply wp_weaken; [apply (wp_seq _ (fun i u' => u' = set_panel (set_scr u (u_scr u')) (q_set_vals (u_panel u) (q_vals (u_panel u'))) /\
    boxes (fun k => 1 <= k <= 8) (u_scr u) (u_scr u') /\ upto force i values (q_vals (u_panel u')) (u_scr u')))| |].
  - split; [destruct u as [? ? ? ? ? ? ? ? ? ? ? []]; reflexivity|]. split; [intros x y _; reflexivity|exact U0].
  - intros i u1 Hi (S1 & B1 & (L1 & U1)). change (0 + Z.of_nat 8) with 8 in Hi. unfold update_field_if_changed.
    destruct (zget_in_range fmFields i) as [f Ef]; [exact Hi|]. destruct (zget_in_range values i) as [v Ev]; [lia|].
    destruct (zget_in_range (q_vals (u_panel u1)) i) as [w Ew]; [lia|].
    apply wp_bind. eapply wp_rd; [exact Ef|]. apply wp_bind. eapply wp_rd; [exact Ev|]. apply wp_bind, wp_get, wp_bind.
    eapply wp_rd; [exact Ew|]. unfold when. destruct (negb (w =? v) || force) eqn:Eb.
    + apply wp_bind. specialize (Hf i f v Ef Ev). destruct (k_format f v) as [t|] eqn:Et; [|contradiction]. clear Hf.
      apply wp_modify. apply wp_modify. cbn [u_scr set_scr set_panel u_panel q_set_vals q_vals].
      assert (B2 : boxes (fun k => k = i + 1) (u_scr u1) (put_cells (u_scr u1) t (fst (field_place f)) (snd (field_place f)))).
      { intros x y Hn. apply put_other. intros -> Hx. apply Hn.
        replace x with (fst (field_place f) + (x - fst (field_place f))) by lia. apply (field_box i f v t); [exact Ef|exact Et|lia]. }
      fold (fst (field_place f)). fold (snd (field_place f)).
      change (put_cells (u_scr u1) t (1 + (FM_HEADING_X + k_x f + k_off f)) (1 + (BASE_Y + k_y f))) with
        (put_cells (u_scr u1) t (fst (field_place f)) (snd (field_place f))).
      split; [rewrite S1; reflexivity|]. split; [|split].
      * eapply boxes_trans; [exact B1|]. eapply boxes_sub; [exact B2|]. cbn. lia.
      * rewrite zset_length. exact L1.
      * intros j x Ex. rewrite (zget_zset _ _ _ _ w Ew) in Ex. destruct (Z.eqb_spec i j) as [<-|N].
        -- injection Ex as <-. split; [auto|]. intros _. exists f, t. split; [exact Ef|]. split; [exact Et|]. apply put_same.
        -- destruct (U1 j x Ex) as [V C]. split; [intros; apply V; lia|]. intros D. eapply field_kept; [exact B2| |apply C].
           ++ cbn. lia.
           ++ destruct D as [D|D]; [left; lia|right; exact D].
    + apply Bool.orb_false_iff in Eb. destruct Eb as [Eb ->]. assert (w = v) by lia. subst w.
      apply wp_ret. split; [exact S1|]. split; [exact B1|]. split; [exact L1|]. intros j x Ex. destruct (U1 j x Ex) as [V C].
      split; [|intros _; apply C; right; reflexivity]. intros Hj. destruct (Z.eq_dec j i) as [->|]; [congruence|apply V; lia].
  - cbn beta. intros _ u' (S1 & B1 & (L1 & U1)). change (0 + Z.of_nat 8) with 8 in *.
    assert (Ev : q_vals (u_panel u') = values).
    { apply zget_ext. intros j Hj. destruct (zget (q_vals (u_panel u')) j) as [x|] eqn:Ex.
      - symmetry. apply U1; [exact Ex|]. apply zget_Some in Ex. lia.
      - symmetry. apply zget_None. apply zget_None in Ex. rewrite Lv. rewrite L1 in Ex. exact Ex. }
    rewrite Ev in *. split; [exact S1|]. split; [exact B1|]. intros j v Hv. apply (U1 j v Hv). left. apply zget_Some in Hv. lia.
  - exact (fun e => e).
Qed.

(** Entry [op] of line [i]. *)
Definition entry (rows : list (list Z)) (i op : Z) : option Z := match zget rows i with Some r => zget r op | None => None end.
Definition op_values (c : fmchan) : list (list Z) := map (fun f : string * (operator -> Z) => map (snd f) (c_ops c)) opFields.
Definition rect (rows : list (list Z)) : Prop := List.length rows = 11%nat /\ Forall (fun r => List.length r = 4%nat) rows.
Lemma rect_entry rows i op : rect rows -> 0 <= i < 11 -> 0 <= op < 4 -> exists r v, zget rows i = Some r /\ zget r op = Some v /\ entry rows i op = Some v.
Proof.
  intros (L & F) Hi Ho. destruct (zget_in_range rows i) as [r Er]; [lia|]. assert (Lr := Forall_zget _ _ _ _ F Er). cbn in Lr.
  destruct (zget_in_range r op) as [v Ev]; [lia|]. exists r, v. unfold entry. rewrite Er. auto.
Qed.
Lemma entry_range rows i op v : rect rows -> entry rows i op = Some v -> 0 <= i < 11 /\ 0 <= op < 4.
Proof.
  intros (L & F) H. unfold entry in H. destruct (zget rows i) as [r|] eqn:Er; [|discriminate]. assert (Lr := Forall_zget _ _ _ _ F Er). cbn in Lr.
  apply zget_Some in Er, H. lia.
Qed.
Lemma rect_ext a b : rect a -> rect b -> (forall i op, 0 <= i < 11 -> 0 <= op < 4 -> entry a i op = entry b i op) -> a = b.
Proof.
  intros Ra Rb H. apply zget_ext. intros i Hi. destruct (Z.ltb_spec i 11) as [Hi'|Hi'].
  - destruct (rect_entry a i 0 Ra) as (r & v & Er & _); [lia|lia|]. destruct (rect_entry b i 0 Rb) as (r' & v' & Er' & _); [lia|lia|].
    rewrite Er, Er'. f_equal. destruct Ra as (_ & Fa), Rb as (_ & Fb). assert (La := Forall_zget _ _ _ _ Fa Er). assert (Lb := Forall_zget _ _ _ _ Fb Er').
    cbn in La, Lb. apply zget_ext. intros k Hk. destruct (Z.ltb_spec k 4) as [Hk'|Hk'].
    + specialize (H i k). unfold entry in H. rewrite Er, Er' in H. apply H; lia.
    + transitivity (@None Z); [|symmetry]; apply zget_None; lia.
  - destruct Ra as (La & _), Rb as (Lb & _). transitivity (@None (list Z)); [|symmetry]; apply zget_None; lia.
Qed.
Lemma rect_set rows i op r v : rect rows -> zget rows i = Some r -> rect (zset rows i (zset r op v)).
Proof.
  intros (L & F) Er. split; [rewrite zset_length; exact L|]. assert (Lr := Forall_zget _ _ _ _ F Er). cbn in Lr. rewrite Forall_forall. intros x Hx.
  apply In_nth_error in Hx. destruct Hx as [n Hn]. assert (Hz : zget (zset rows i (zset r op v)) (Z.of_nat n) = Some x).
  { unfold zget. destruct (Z.ltb_spec (Z.of_nat n) 0); [lia|]. rewrite Nat2Z.id. exact Hn. }
  rewrite (zget_zset _ _ _ _ r Er) in Hz. destruct (i =? Z.of_nat n).
  - injection Hz as <-. rewrite zset_length. exact Lr.
  - exact (Forall_zget _ _ _ _ F Hz).
Qed.
Lemma entry_set rows i op r w v j k : zget rows i = Some r -> zget r op = Some w ->
  entry (zset rows i (zset r op v)) j k = if (j =? i) && (k =? op) then Some v else entry rows j k.
Proof.
  intros Er Ew. unfold entry. rewrite (zget_zset _ _ _ _ r Er). rewrite (Z.eqb_sym j i). destruct (Z.eqb_spec i j) as [<-|N]; cbn [andb]; [|reflexivity].
  rewrite (zget_zset _ _ _ _ w Ew), Er. rewrite (Z.eqb_sym k op). reflexivity.
Qed.
Lemma op_values_rect c : List.length (c_ops c) = 4%nat -> rect (op_values c).
Proof.
  intros L. split; [reflexivity|]. unfold op_values. rewrite Forall_forall. intros r Hr. apply in_map_iff in Hr. destruct Hr as (f & <- & _).
  rewrite map_length. exact L.
Qed.
Lemma op_values_entry c i op f o : zget opFields i = Some f -> zget (c_ops c) op = Some o -> entry (op_values c) i op = Some (snd f o).
Proof. intros Hf Ho. unfold entry, op_values. rewrite zget_map, Hf, zget_map, Ho. reflexivity. Qed.

Definition ops_upto (force : bool) (n : Z) (c : fmchan) (rows : list (list Z)) (scr : Z -> Z -> Z) : Prop :=
  rect rows /\
  forall i op v, entry rows i op = Some v ->
    (4 * i + op < n -> entry (op_values c) i op = Some v) /\ (4 * i + op < n \/ force = false -> op_cells scr i op v).
Lemma ops_wp (E : Prop) c force u :
  ops_upto force 0 c (q_ops (u_panel u)) (u_scr u) -> List.length (c_ops c) = 4%nat ->
  wp (update_op_values c force) u (fun _ u' =>
    u' = set_panel (set_scr u (u_scr u')) (q_set_ops (u_panel u) (op_values c)) /\
    boxes (fun k => 100 <= k) (u_scr u) (u_scr u') /\ (forall i op v, entry (op_values c) i op = Some v -> op_cells (u_scr u') i op v)) E.
Proof.
  intros U0 Lc. unfold update_op_values.
  set (J := fun n u' => u' = set_panel (set_scr u (u_scr u')) (q_set_ops (u_panel u) (q_ops (u_panel u'))) /\
    boxes (fun k => 100 <= k) (u_scr u) (u_scr u') /\ ops_upto force n c (q_ops (u_panel u')) (u_scr u')).
  eapply wp_weaken; [apply (wp_seq _ (fun i u' => J (4 * i) u'))| |].
  - split; [destruct u as [? ? ? ? ? ? ? ? ? ? ? []]; reflexivity|]. split; [intros x y _; reflexivity|exact U0].
  - intros i u0 Hi J0. change (0 + Z.of_nat 11) with 11 in Hi.
    eapply wp_weaken; [apply (wp_seq _ (fun op u' => J (4 * i + op) u'))| |].
    + rewrite Z.add_0_r. exact J0.
    + intros op u1 Ho (S1 & B1 & (R1 & U1)). change (0 + Z.of_nat 4) with 4 in Ho. unfold update_op_field_if_changed.
      destruct (zget_in_range opFields i) as [f Ef]; [exact Hi|]. destruct (zget_in_range (c_ops c) op) as [o Eo]; [lia|].
      destruct (rect_entry _ i op R1 Hi Ho) as (r & w & Er & Ew & En).
      apply wp_bind. eapply wp_rd; [exact Ef|]. apply wp_bind. eapply wp_rd; [exact Eo|]. apply wp_bind, wp_get, wp_bind.
      eapply wp_rd; [exact Er|]. apply wp_bind. eapply wp_rd; [exact Ew|]. set (v := snd f o).
      assert (Ev := op_values_entry c i op f o Ef Eo). fold v in Ev.
      unfold when. destruct (negb (w =? v) || force) eqn:Eb.
      * apply wp_bind. apply wp_modify. apply wp_modify. cbn [u_scr set_scr set_panel u_panel q_set_ops q_ops].
        change (pad 3 (dec v)) with (op_text v).
        assert (B2 : boxes (fun k => k = 100 + 4 * i + op) (u_scr u1) (put_cells (u_scr u1) (op_text v) (1 + (OP_HEADING_X + 4 + op * 4)) (1 + (OP_BASE_Y + i + 1)))).
        { intros x y Hn. apply put_other. rewrite op_len. intros -> Hx. apply Hn.
          replace x with (1 + (OP_HEADING_X + 4 + op * 4) + (x - (1 + (OP_HEADING_X + 4 + op * 4)))) by lia. apply op_box; lia. }
        split; [rewrite S1; reflexivity|]. split; [|split].
        -- eapply boxes_trans; [exact B1|]. eapply boxes_sub; [exact B2|]. cbn. lia.
        -- eapply rect_set; eassumption.
        -- intros j k x Ex. cbn [u_panel set_panel q_ops q_set_ops] in Ex. rewrite (entry_set _ _ _ _ _ _ _ _ Er Ew) in Ex.
           destruct ((j =? i) && (k =? op)) eqn:Ejk.
           ++ injection Ex as <-. assert (j = i) by lia. assert (k = op) by lia. subst j k. split; [auto|]. intros _. apply put_same.
           ++ destruct (U1 j k x Ex) as [V C]. assert (Rj := entry_range _ _ _ _ R1 Ex). split; [intros; apply V; lia|].
              intros D. eapply op_kept; [lia|lia|exact B2| |apply C].
              ** cbn. lia.
              ** destruct D as [D|D]; [left; lia|right; exact D].
      * apply Bool.orb_false_iff in Eb. destruct Eb as [Eb ->]. assert (w = v) by lia. subst w.
        apply wp_ret. split; [exact S1|]. split; [exact B1|]. split; [exact R1|]. intros j k x Ex. destruct (U1 j k x Ex) as [V C].
        assert (Rj := entry_range _ _ _ _ R1 Ex).
        split; [|intros _; apply C; right; reflexivity]. intros Hj.
        destruct (Z.eq_dec (4 * j + k) (4 * i + op)) as [Eq|Nq]; [|apply V; lia].
        assert (j = i) by lia. assert (k = op) by lia. subst j k. congruence.
    + cbn beta. intros _ u' H. replace (4 * (i + 1)) with (4 * i + (0 + Z.of_nat 4)) by lia. exact H.
    + exact (fun e => e).
  - cbn beta. intros _ u' (S1 & B1 & (R1 & U1)). change (4 * (0 + Z.of_nat 11)) with 44 in U1. assert (Rv := op_values_rect c Lc).
    assert (Ev : q_ops (u_panel u') = op_values c).
    { apply rect_ext; [exact R1|exact Rv|]. intros i op Hi Ho. destruct (rect_entry _ i op R1 Hi Ho) as (r & v & _ & _ & En). rewrite En.
      symmetry. apply (U1 i op v En). lia. }
    rewrite Ev in *. split; [exact S1|]. split; [exact B1|]. intros i op v Hv. apply (U1 i op v Hv). left.
    apply (entry_range _ _ _ _ Rv) in Hv. lia.
  - exact (fun e => e).
Qed.

(** ** The panel's invariant *)
Definition diagram (q : panel) : Prop := forall k, 0 <= k < 8 -> zget (q_spr q) k = Some (k =? q_alg q).
Definition panel_inv (u : ui) : Prop :=
  let q := u_panel u in
  (List.length (q_vals q) = 8%nat /\ rect (q_ops q) /\ List.length (q_spr q) = 8%nat /\ 0 <= q_fm q < 6) /\
  (q_force q = true -> q_dirty q = true) /\
  (q_show q = false -> (forall x y, region x y = PANEL -> u_scr u x y = BLANK) /\ forall k, 0 <= k < 8 -> zget (q_spr q) k = Some false) /\
  (q_show q = true -> heads (u_scr u)) /\
  (q_show q = true -> q_force q = false ->
    (forall i v, zget (q_vals q) i = Some v -> field_cells (u_scr u) i v) /\
    (forall i op v, entry (q_ops q) i op = Some v -> op_cells (u_scr u) i op v) /\ diagram q).
(** The values remembered are those of the channel. *)
Definition current (s : synth) (q : panel) : Prop :=
  exists c, zget (s_chans s) (q_fm q) = Some c /\ q_vals q = field_values s c (q_midi q) (q_fm q) /\ q_ops q = op_values c /\ q_alg q = c_alg c.
Definition fresh (s : synth) (u : ui) : Prop := q_show (u_panel u) = true -> q_dirty (u_panel u) = false -> current s (u_panel u).

Lemma panel_inv_kept l u u' : u_panel u' = u_panel u -> only l (u_scr u) (u_scr u') -> ~ In PANEL l -> panel_inv u -> panel_inv u'.
Proof.
  intros E H Hl (A & B & C & D & F). unfold panel_inv. cbn zeta. rewrite E. split; [exact A|]. split; [exact B|]. split; [|split].
  - intros Hs. destruct (C Hs) as (C1 & C2). split; [|exact C2]. intros x y R. rewrite H by (rewrite R; exact Hl). apply C1, R.
  - intros Hs. eapply heads_only; [exact H|exact Hl|apply D, Hs].
  - intros Hs Hf. destruct (F Hs Hf) as (F1 & F2 & F3). assert (B' := only_boxes _ _ _ H Hl). split; [|split; [|exact F3]].
    + intros i v Hv. assert (R := zget_Some _ _ _ Hv). eapply field_kept; [exact B'| |apply F1, Hv]. cbn. lia.
    + intros i op v Hv. assert (R := entry_range _ _ _ _ (proj1 (proj2 A)) Hv). eapply op_kept; [lia|lia|exact B'| |apply F2, Hv]. cbn. lia.
Qed.

(** Values the formats accept. *)
Definition drawable (s : synth) (c : fmchan) : Prop :=
  0 <= c_alg c < 8 /\ 0 <= c_fb c < 8 /\ 0 <= c_fms c < 8 /\ 0 <= c_ams c < 4 /\ 0 <= s_lfofreq s < 8 /\ List.length (c_ops c) = 4%nat.
Lemma dec_small n : n < 100 -> (List.length (dec n) <= 2)%nat.
Proof. intros H. unfold dec. replace (100 <=? n) with false by lia. destruct (10 <=? n); cbn; lia. Qed.
Lemma number_fits n : n < 100 -> format_num n <> None.
Proof. intros H. unfold format_num, fits. assert (L := dec_small n H). destruct (Nat.leb_spec (List.length (dec n)) 2); [discriminate|lia]. Qed.
Lemma chan_fits n : n < 99 -> chan_number n <> None.
Proof.
  intros H. unfold chan_number, fits. assert (L := dec_small (n + 1)). assert (L1 := dec_len (n + 1)).
  assert (X : (List.length (padr 2 (dec (n + 1))) <= 2)%nat) by (unfold padr; rewrite app_length, repeat_length; lia).
  destruct (Nat.leb_spec (List.length (padr 2 (dec (n + 1)))) 2); [discriminate|lia].
Qed.
Lemma formats s c mc fm i f v : drawable s c -> mc < 99 -> fm < 99 -> zget fmFields i = Some f -> zget (field_values s c mc fm) i = Some v ->
  k_format f v <> None.
Proof.
  intros (A & B & C & D & L & _) Hm Hf Ef Ev. assert (R := zget_Some _ _ _ Ef).
  assert (T : forall (l : list (list Z)) n, 0 <= n < Z.of_nat (List.length l) -> zget l n <> None).
  { intros l n H E. apply zget_None in E. contradiction. }
  destruct (eight i R) as [-> | [-> | [-> | [-> | [-> | [-> | [-> | ->]]]]]]]; cbn in Ef; injection Ef as <-; cbn in Ev; injection Ev as <-; cbn [k_format].
  - apply chan_fits; lia.
  - apply chan_fits; lia.
  - apply number_fits; lia.
  - apply number_fits; lia.
  - discriminate.
  - apply T. change (Z.of_nat (List.length LFO_TEXT)) with 9. destruct (s_lfoen s =? 0); [lia|]. unfold u8. rewrite Z.mod_small; lia.
  - apply T. exact C.
  - apply T. exact D.
Qed.

Lemma all_false_zget (l : list bool) k : 0 <= k < Z.of_nat (List.length l) -> zget (map (fun _ => false) l) k = Some false.
Proof. intros H. rewrite zget_map. destruct (zget_in_range l k H) as [x ->]. reflexivity. Qed.

Lemma values_wp (E : Prop) s c u : panel_inv u -> q_show (u_panel u) = true -> zget (s_chans s) (q_fm (u_panel u)) = Some c -> drawable s c ->
  q_midi (u_panel u) < 99 ->
  wp (update_fm_values s) u (fun _ u' => exists spr,
    u' = set_panel (set_scr u (u_scr u')) (mkPanel (q_dirty (u_panel u)) true (q_midi (u_panel u)) (q_fm (u_panel u)) (c_alg c) false
      (field_values s c (q_midi (u_panel u)) (q_fm (u_panel u))) (op_values c) spr) /\
    only [PANEL] (u_scr u) (u_scr u') /\ forall d, panel_inv (set_panel u' (q_set_dirty (u_panel u') d))) E.
Proof.
  intros (PA & PB & PC & PD & PE) Hs Hc Dr Hm. unfold update_fm_values. apply wp_bind, wp_get. set (q := u_panel u) in *.
  apply wp_bind. eapply wp_rd; [exact Hc|]. apply wp_bind.
  assert (Dr' := Dr). destruct Dr' as (Ra & _ & _ & _ & _ & Lo). destruct PA as (Lv & Ro & Ls & Rf).
  eapply wp_weaken; [apply (fields_wp E (field_values s c (q_midi q) (q_fm q)) (q_force q) u)| |exact (fun e => e)].
  { split; [exact Lv|]. intros j v Hv. split; [apply zget_Some in Hv; lia|]. intros [X|Hf]; [apply zget_Some in Hv; lia|]. apply (PE Hs Hf), Hv. }
  { reflexivity. }
  { intros i f v Ef Ev. eapply formats; [exact Dr|exact Hm| |exact Ef|exact Ev]. lia. }
  intros [] u1 (S1 & B1 & V1). apply wp_bind.
  set (q1 := q_set_vals q (field_values s c (q_midi q) (q_fm q))) in *.
  assert (Q1 : u_panel u1 = q1) by (rewrite S1; reflexivity).
  (* the diagram *)
  eapply (wp_weaken _ _ (fun _ u2 => exists spr, u2 = set_panel u1 (q_set_alg (q_set_spr q1 spr) (c_alg c)) /\ List.length spr = 8%nat /\
    forall k, 0 <= k < 8 -> zget spr k = Some (k =? c_alg c)) _ E).
  { unfold when. destruct (negb (q_alg q =? c_alg c) || q_force q) eqn:Eb.
    - unfold update_algorithm_diagram, hide_all_algorithms. apply wp_bind. apply wp_bind. apply wp_modify. apply wp_bind, wp_get. apply wp_bind.
      cbn [u_panel set_panel q_spr q_set_spr]. rewrite Q1. change (q_spr q1) with (q_spr q).
      eapply wp_rd; [apply (all_false_zget (q_spr q) (c_alg c)); lia|]. apply wp_modify. apply wp_modify.
      exists (zset (map (fun _ => false) (q_spr q)) (c_alg c) true). cbn [u_panel set_panel q_spr q_set_spr].
      split; [reflexivity|]. split; [rewrite zset_length, map_length; exact Ls|].
      intros k Hk. rewrite (zget_zset _ _ _ _ false) by (apply all_false_zget; lia). rewrite Z.eqb_sym.
      destruct (k =? c_alg c); [reflexivity|]. apply all_false_zget. lia.
    - apply Bool.orb_false_iff in Eb. destruct Eb as [Eb Ef]. assert (Ea : q_alg q = c_alg c) by lia.
      apply wp_ret. exists (q_spr q). split; [|split; [exact Ls|]].
      + rewrite <- Ea. clear - Q1. destruct u1 as [? ? ? ? ? ? ? ? ? ? ? q']. cbn in Q1. subst q'. unfold q1. destruct q. reflexivity.
      + intros k Hk. rewrite <- Ea. apply (PE Hs Ef). exact Hk. }
  2: exact (fun e => e).
  intros [] u2 (spr & S2 & Lspr & Dspr). apply wp_bind.
  assert (X2 : u_scr u2 = u_scr u1) by (rewrite S2; reflexivity).
  set (q2 := q_set_alg (q_set_spr q1 spr) (c_alg c)) in *.
  assert (Q2 : u_panel u2 = q2) by (rewrite S2; reflexivity).
  eapply wp_weaken; [apply (ops_wp E c (q_force q) u2)| |exact (fun e => e)].
  { rewrite Q2, X2. split; [exact Ro|]. change (q_ops q2) with (q_ops q). intros i op v Hv. assert (R := entry_range _ _ _ _ Ro Hv). split; [lia|].
    intros [X|Hf]; [lia|]. eapply op_kept; [lia|lia|exact B1| |apply (PE Hs Hf), Hv]. cbn. lia. }
  { exact Lo. }
  intros [] u3 (S3 & B3 & V3). apply wp_modify. exists spr. cbn [u_scr set_panel u_panel].
  assert (Q3 : u_panel u3 = q_set_ops q2 (op_values c)) by (rewrite S3, <- Q2; reflexivity).
  split; [|split].
  - rewrite Q3. rewrite S3 at 1. rewrite S2, S1. cbn. unfold q2, q1, q_set_ops, q_set_alg, q_set_spr, q_set_vals, q_set_force. cbn. rewrite Hs. reflexivity.
  - eapply only_trans; [apply (boxes_panel _ _ _ B1); lia|]. rewrite <- X2. apply (boxes_panel _ _ _ B3). lia.
  - intros d. rewrite Q3. unfold panel_inv, q2, q1. cbn. rewrite X2 in B3.
    split; [split; [reflexivity|]; split; [apply op_values_rect; exact Lo|]; split; [exact Lspr|exact Rf]|].
    split; [discriminate|]. split; [rewrite Hs; discriminate|]. split.
    + intros _. eapply heads_kept; [exact B3|cbn; lia|]. eapply heads_kept; [exact B1|cbn; lia|]. apply PD, Hs.
    + intros _ _. split; [|split].
      * intros i v Hv. assert (R := zget_Some _ _ _ Hv). cbn [List.length field_values] in R. eapply field_kept; [exact B3|cbn; lia|]. apply V1, Hv.
      * exact V3.
      * exact Dspr.
Qed.

Lemma fm_same s u b (Q : Prop) : panel_inv u -> q_show (u_panel u) = b -> Q -> panel_inv u /\ (fresh s u -> fresh s u) /\
  u = set_panel (set_scr u (u_scr u)) (u_panel u) /\ only [PANEL] (u_scr u) (u_scr u) /\
  q_show (u_panel u) = b /\ q_midi (u_panel u) = q_midi (u_panel u) /\ Q.
Proof. intros P Hb HQ. split; [exact P|]. split; [exact (fun F => F)|]. split; [destruct u; reflexivity|]. split; [apply only_refl|]. auto. Qed.

Lemma fm_wp (E : Prop) m s u : panel_inv u -> (forall n c, zget (s_chans s) n = Some c -> drawable s c) ->
  List.length (s_chans s) = 6%nat -> q_midi (u_panel u) < 99 ->
  (forall i d, zget (firstn 6 (md_dev m)) i = Some d -> 0 <= d_num d < 6) ->
  wp (ui_fm_update m s) u (fun _ u' =>
    panel_inv u' /\ (fresh s u -> fresh s u') /\ u' = set_panel (set_scr u (u_scr u')) (u_panel u') /\ only [PANEL] (u_scr u) (u_scr u') /\
    q_show (u_panel u') = q_show (u_panel u) /\ q_midi (u_panel u') = q_midi (u_panel u) /\
    let chan := get_fm_chan_for_midi_chan (firstn 6 (md_dev m)) (q_midi (u_panel u)) in
    (q_show (u_panel u) = true -> chan <> UNKNOWN_FM_CHANNEL -> q_fm (u_panel u') = chan /\ q_dirty (u_panel u') = false)) E.
Proof.
  intros P Dr Lc Hm Hd. unfold ui_fm_update. apply wp_bind, wp_get.
  destruct (q_show (u_panel u)) eqn:Hs; cbn [negb].
  2: { apply wp_ret. apply (fm_same s u _ _ P Hs). discriminate. }
  set (chan := get_fm_chan_for_midi_chan (firstn 6 (md_dev m)) (q_midi (u_panel u))) in *.
  destruct (Z.eqb_spec chan UNKNOWN_FM_CHANNEL) as [Eu|Nu].
  { apply wp_ret. apply (fm_same s u _ _ P Hs). intros _ X. contradiction. }
  assert (Rc : 0 <= chan < 6).
  { assert (G : forall l, (forall d, In d l -> 0 <= d_num d < 6) -> get_fm_chan_for_midi_chan l (q_midi (u_panel u)) <> UNKNOWN_FM_CHANNEL ->
      0 <= get_fm_chan_for_midi_chan l (q_midi (u_panel u)) < 6).
    { clear. induction l as [|d l IH]; cbn; intros H N; [contradiction|]. destruct (d_midi d =? q_midi (u_panel u)); [apply H; auto|apply IH; auto]. }
    apply G; [|exact Nu]. intros d Hi. apply In_nth_error in Hi. destruct Hi as [n Hn]. apply (Hd (Z.of_nat n)).
    unfold zget. destruct (Z.ltb_spec (Z.of_nat n) 0); [lia|]. rewrite Nat2Z.id. exact Hn. }
  apply wp_bind.
  set (q := u_panel u) in *.
  eapply (wp_weaken _ _ (fun _ u1 => u1 = set_panel u (if q_fm q =? chan then q else q_set_dirty (q_set_fm q chan) true)) _ E).
  { unfold when. destruct (q_fm q =? chan); cbn [negb]; [apply wp_ret; unfold q; destruct u; reflexivity|apply wp_modify; reflexivity]. }
  2: exact (fun e => e).
  intros [] u1 S1. set (q1 := if q_fm q =? chan then q else q_set_dirty (q_set_fm q chan) true) in *.
  assert (Q1 : u_panel u1 = q1) by (rewrite S1; reflexivity). assert (X1 : u_scr u1 = u_scr u) by (rewrite S1; reflexivity).
  assert (P1 : panel_inv u1).
  { unfold panel_inv. rewrite Q1, X1. unfold q1. destruct (Z.eqb_spec (q_fm q) chan); [exact P|].
    destruct P as ((A1 & A2 & A3 & A4) & B & C & D & G). cbn. split; [auto|]. split; [auto|]. split; [exact C|]. split; [exact D|exact G]. }
  assert (F1 : q_fm q1 = chan /\ q_show q1 = true /\ q_midi q1 = q_midi q).
  { unfold q1. destruct (Z.eqb_spec (q_fm q) chan); cbn; auto. }
  destruct F1 as (F1 & F2 & F3).
  apply wp_bind, wp_get. unfold when. rewrite Q1. destruct (q_dirty q1) eqn:Ed.
  - destruct (zget_in_range (s_chans s) chan) as [c Ec]; [lia|]. apply wp_bind.
    eapply wp_weaken; [apply (values_wp E s c u1 P1)| |exact (fun e => e)].
    { rewrite Q1. exact F2. } { rewrite Q1, F1. exact Ec. } { eapply Dr; exact Ec. } { rewrite Q1, F3. exact Hm. }
    intros [] u2 (spr & S2 & O2 & P2). apply wp_modify. rewrite X1 in O2.
    assert (Q2 : u_panel u2 = mkPanel (q_dirty q1) true (q_midi q1) (q_fm q1) (c_alg c) false (field_values s c (q_midi q1) (q_fm q1)) (op_values c) spr).
    { rewrite S2, Q1. reflexivity. }
    split; [apply P2|]. split; [|split; [|split; [exact O2|split; [|split]]]].
    + intros _ _ _. exists c. cbn [u_panel set_panel q_set_dirty q_fm q_vals q_midi q_ops q_alg]. rewrite Q2. cbn. rewrite F1. auto.
    + rewrite S2, S1. reflexivity.
    + cbn. rewrite Q2. cbn. reflexivity.
    + cbn. rewrite Q2. cbn. exact F3.
    + intros _ _. cbn. rewrite Q2. cbn. auto.
  - assert (Eq : q1 = q). { unfold q1 in *. destruct (q_fm q =? chan); [reflexivity|discriminate]. }
    assert (u1 = u). { rewrite S1, Eq. unfold q. destruct u; reflexivity. }
    apply wp_ret. rewrite H. apply (fm_same s u _ _ P Hs). intros _ _. fold q; split; [congruence|congruence].
Qed.
