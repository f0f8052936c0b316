(** Malformed system exclusive messages, ping, and the controllers for FM
    parameters. *)
From Verif Require Import Base BaseLemmas PitchModel NotePriorityModel SynthModel.
From Verif Require Import MidiModel MidiSpec MidiProofs MidiOkProofs MidiEqProofs MidiEffectProofs.

Lemma prefix_starts p : forall data, has_prefix p data = true -> starts_with p data.
Proof. intros data H. destruct (has_prefix_app _ _ H) as [t ->]. exists t. reflexivity. Qed.
Lemma has_prefix_own t : has_prefix [0x00; 0x22; 0x77] (own_header ++ t) = true. Proof. reflexivity. Qed.

Lemma handler_counts cmd h : sysex_handler cmd = Some h ->
  match arg_count cmd with
  | None => False
  | Some None => True
  | Some (Some n) => exists g, h = fixed_length (Z.of_nat n) g
  end.
Proof.
  intros H. assert (K := sysex_cmd_cases _ _ H).
  repeat (destruct K as [-> | K]); [..|subst cmd]; injection H as <-; cbn [arg_count]; try exact I; eexists; reflexivity.
Qed.
Lemma ill_formed_ignored data s : ill_formed data -> steps s (MSysex data) s [].
Proof.
  intros H. unfold steps. cbn [midi_step]. unfold midi_sysex.
  destruct (Z.ltb_spec (Z.of_nat (length data)) 4) as [|Hlen]; [reflexivity|].
  destruct H as [H|[(H1 & H2)|(cmd & args & -> & H)]]; [lia| |].
  - destruct (has_prefix [126; 127; 9; 1] data) eqn:Eg; [exfalso; apply H1, prefix_starts, Eg|].
    destruct (has_prefix [0; 34; 119] data) eqn:Ep; [exfalso; apply H2, prefix_starts, Ep|]. reflexivity.
  - rewrite has_prefix_own. cbn [own_header app has_prefix]. cbn [Z.eqb Pos.eqb andb negb].
    change (wdata (0 :: 34 :: 119 :: cmd :: args) 3) with (@wret Z cmd). rewrite wbind_ret. cbn [skipn].
    destruct (sysex_handler cmd) as [h|] eqn:Eh; [|reflexivity]. apply handler_counts in Eh.
    destruct H as [H|(n & H & Hn)]; rewrite H in Eh; [destruct Eh|]. destruct Eh as [g ->]. unfold fixed_length.
    destruct (Z.eqb_spec (Z.of_nat (length args)) (Z.of_nat n)); [lia|reflexivity].
Qed.

(** ** Ping *)
Definition pong (payload : list Z) : list Z :=
  match payload with
  | a :: 1 :: b :: rest => a :: b :: rest
  | a :: _ => [a]
  | [] => []
  end.
Lemma ping_reply s payload : steps s (own_sysex 1 payload) s [DTx ([0x00; 0x22; 0x77; 0x02] ++ pong payload)].
Proof.
  unfold steps, own_sysex. cbn [midi_step]. unfold midi_sysex. cbn [app].
  destruct (Z.ltb_spec (Z.of_nat (length (0 :: 34 :: 119 :: 1 :: payload))) 4) as [H|_]; [cbn [length] in H; lia|].
  cbn [has_prefix]. cbn [Z.eqb Pos.eqb andb negb].
  change (wdata (0 :: 34 :: 119 :: 1 :: payload) 3) with (@wret Z 1). rewrite wbind_ret. cbn [skipn sysex_handler].
  unfold send_pong. destruct payload as [|a [|b [|c t]]]; try reflexivity.
  - cbn [length pong]. destruct (Z.leb_spec 3 (Z.of_nat 2)); [lia|]. rewrite !wbind_ret. destruct b as [|[| |]|]; reflexivity.
  - cbn [pong]. destruct (Z.leb_spec 3 (Z.of_nat (length (a :: b :: c :: t)))) as [_|H]; [|cbn [length] in H; lia].
    change (wdata (a :: b :: c :: t) 1) with (@wret Z b). rewrite !wbind_ret. cbn [skipn].
    destruct (Z.eqb_spec b 1) as [->|Hb]; [reflexivity|]. rewrite !wbind_ret.
    destruct b as [|[| |]|]; try reflexivity. contradiction.
Qed.
Lemma pong_seven payload : Forall seven payload -> Forall seven (pong payload).
Proof.
  intros H. destruct payload as [|a [|b t]]; cbn [pong]; [constructor|exact H|].
  assert (Ha := Forall_inv H). assert (Ht := Forall_inv_tail (Forall_inv_tail H)).
  destruct b as [|[| |]|]; [repeat constructor; apply Ha..| |repeat constructor; apply Ha].
  destruct t; [repeat constructor; apply Ha|]. constructor; [exact Ha|exact Ht].
Qed.

(** ** FM parameter controllers *)
Lemma controls_eq s n k v : k <> 51 -> k <> 52 -> k <> 53 -> k <> 54 -> seven v -> is_fm_controller k ->
  fm_parameter s n k v = fm_controls k n (if (16 <=? k) && (k <? 20) then total_level_value s v else RANGE v (field_max k + 1)).
Proof.
  intros H51 H52 H53 H54 Hv Hk. unfold is_fm_controller, fm_controls in Hk. cbv zeta in Hk.
  assert (K : k = 14 \/ k = 15 \/ 16 <= k <= 27 \/ 39 <= k <= 62 \/ 70 <= k <= 77 \/ 90 <= k <= 93 \/ k = 1).
  { repeat match type of Hk with context [if ?b then _ else _] => destruct b eqn:?; [lia|] end. exfalso. apply Hk. reflexivity. }
  assert (C : forall a n, a <= k < a + Z.of_nat n -> In k (zseq a n)) by (intros a m H; apply in_zseq; lia).
  assert (K' : In k (zseq 14 2 ++ zseq 16 12 ++ zseq 39 24 ++ zseq 70 8 ++ zseq 90 4 ++ zseq 1 1)).
  { rewrite !in_app_iff. destruct K as [-> | [-> | [K|[K|[K|[K| ->]]]]]].
    - left. apply C. lia.
    - left. apply C. lia.
    - right; left. apply C. lia.
    - right; right; left. apply C. lia.
    - right; right; right; left. apply C. lia.
    - right; right; right; right; left. apply C. lia.
    - do 5 right. apply C. lia. }
  cbn [zseq app] in K'. revert H51 H52 H53 H54. clear C K Hk.
  repeat (destruct K' as [<-|K']; [intros; try reflexivity; try lia; fail|]). destruct K'.
Qed.
(** The calls of an FM parameter controller. *)
Lemma not_listed k : is_fm_controller k ->
  ~ In k [5; 7; 10; 123; 120; 84; 80; 121; 83; 86; 65; 85; 6; 38; 101; 100; 11; 64; 98; 99; 87; 78].
Proof.
  intros Hk H. cbn [In] in H. repeat destruct H as [<-|H]; try (apply Hk; reflexivity). destruct H.
Qed.
Lemma fm_cc_calls s s' o c k v :
  midi_ok s -> is_chan c -> seven v -> is_fm_controller k -> steps s (MCc c k v) s' o ->
  s' = s /\ o = flat_map (calls_at c (fm_call s k v)) (md_dev s) ++ (if md_cb s then [DChange 2 c k v] else []).
Proof.
  intros Hs Hc Hv Hk E. unfold steps in E; cbn [midi_step] in E. destruct (ok_ch_get _ _ Hs Hc) as (m & Hm & _).
  destruct (midi_cc_result _ _ _ _ m _ _ Hs Hc Hv Hm E) as (o' & R & ->). assert (Hn := not_listed k Hk). cbn [In] in Hn.
  destruct R as [m' Hf|Hk'|Hk'|Hk'|s1 Hk' E1|Hk'|s1 o1 Hk' E1|Hk' _|Hk' Hr|Hk'|o1 Hk' _|Hk'|devs o1 Hk' HH]; try (exfalso; lia).
  - exfalso. unfold cc_field in Hf.
    destruct (Z.eqb_spec k 5); [lia|]. destruct (Z.eqb_spec k 86); [lia|]. destruct (Z.eqb_spec k 65); [lia|].
    destruct (Z.eqb_spec k 85); [lia|]. destruct (Z.eqb_spec k 101); [lia|]. destruct (Z.eqb_spec k 100); [lia|]. discriminate.
  - split; reflexivity.
Qed.
Lemma RANGE_max v n : 0 <= v < 128 -> n = 2 \/ n = 4 \/ n = 8 \/ n = 16 \/ n = 32 -> 0 <= RANGE v n < n.
Proof.
  intros Hv Hn. unfold RANGE. destruct Hn as [-> | [-> | [-> | [-> | ->]]]]; cbn [Z.quot Z.quotrem fst Z.pos_div_eucl];
    rewrite Z.quot_div_nonneg by lia; split; [apply Z.div_pos; lia|apply Z.div_lt_upper_bound; lia|
    apply Z.div_pos; lia|apply Z.div_lt_upper_bound; lia|apply Z.div_pos; lia|apply Z.div_lt_upper_bound; lia|
    apply Z.div_pos; lia|apply Z.div_lt_upper_bound; lia|apply Z.div_pos; lia|apply Z.div_lt_upper_bound; lia].
Qed.
Lemma field_max_cases k : field_max k = 1 \/ field_max k = 3 \/ field_max k = 7 \/ field_max k = 15 \/ field_max k = 31 \/ field_max k = 127.
Proof.
  unfold field_max. cbv zeta. destruct (_ || _ || _ || _ || _); [auto|]. destruct (_ && _); [auto 8|].
  destruct (_ || _ || _); [auto 8|]. destruct (_ || _ || _ || _); [auto 8|]. destruct (_ || _ || _); auto.
Qed.
Definition scaled (k v : Z) : Z := RANGE v (field_max k + 1).
Lemma scaled_spec k :
  (forall v, seven v -> 0 <= scaled k v <= field_max k) /\ scaled k 0 = 0 /\ scaled k 127 = field_max k /\
  (forall v w, seven v -> seven w -> v <= w -> scaled k v <= scaled k w).
Proof.
  unfold scaled, RANGE, seven.
  destruct (field_max_cases k) as [-> | [-> | [-> | [-> | [-> | ->]]]]];
    match goal with |- context [Z.quot 128 ?n] => let q := eval vm_compute in (Z.quot 128 n) in change (Z.quot 128 n) with q end;
    (split; [intros v Hv; rewrite Z.quot_div_nonneg by lia; split;
       [apply Z.div_pos; lia|match goal with |- _ <= ?m => apply Z.lt_succ_r end; apply Z.div_lt_upper_bound; lia]|]);
    (split; [reflexivity|]); (split; [reflexivity|]);
    intros v w Hv Hw H; rewrite !Z.quot_div_nonneg by lia; apply Z.div_le_mono; lia.
Qed.
Definition level_of (s : midi) (k v : Z) : Z :=
  if (16 <=? k) && (k <? 20) then (if md_inv s then 127 - v else v)
  else if (51 <=? k) && (k <? 55) then RANGE v 16 else scaled k v.
Lemma fm_controller_sets s s' o c k v :
  midi_ok s -> is_chan c -> seven v -> is_fm_controller k -> md_nogm s = false -> steps s (MCc c k v) s' o ->
  s' = s /\
  (forall i d, serves s c i d -> exists op, fm_controls k (d_num d) (level_of s k v) = Some op /\ In (DSynth op) o) /\
  (forall op, In (DSynth op) o -> exists i d, serves s c i d /\ fm_controls k (d_num d) (level_of s k v) = Some op).
Proof.
  intros Hs Hc Hv Hk Hg E. destruct (fm_cc_calls _ _ _ _ _ _ Hs Hc Hv Hk E) as [-> ->]. split; [reflexivity|].
  assert (KL : forall n, fm_parameter s n k v = fm_controls k n (level_of s k v)).
  { intros n. unfold level_of, scaled. destruct ((51 <=? k) && (k <? 55)) eqn:E51.
    { assert (H : k = 51 \/ k = 52 \/ k = 53 \/ k = 54) by lia. destruct H as [-> | [-> | [-> | ->]]]; reflexivity. }
    rewrite controls_eq by (assumption || lia). f_equal. unfold total_level_value.
    destruct ((16 <=? k) && (k <? 20)); [|reflexivity]. destruct (md_inv s); [|reflexivity]. unfold u8, seven in *. apply Z.mod_small. lia. }
  assert (KS : forall n x, fm_controls k n x <> None).
  { intros n x. unfold is_fm_controller, fm_controls in *. cbv zeta in *.
    repeat match goal with |- context [if ?b then _ else _] => destruct b; [discriminate|] end. exact Hk. }
  split.
  - intros i d [Hd Hdc]. destruct (fm_controls k (d_num d) (level_of s k v)) as [op|] eqn:Eo; [|destruct (KS _ _ Eo)].
    exists op. split; [reflexivity|]. apply in_app_iff. left. apply in_flat_map. exists d.
    split; [unfold dev_at, zget in Hd; destruct (i <? 0); [discriminate|]; eapply nth_error_In; exact Hd|].
    unfold calls_at. replace (d_midi d =? c) with true by lia. unfold fm_call. rewrite Hg, KL, Eo. left. reflexivity.
  - intros op Hin. apply in_app_iff in Hin as [Hin|Hin].
    + apply in_flat_map in Hin as (d & Hd & Hx). destruct (In_zget _ _ Hd) as [i Hi]. unfold calls_at in Hx.
      destruct (Z.eqb_spec (d_midi d) c) as [Hdc|]; [|destruct Hx]. exists i, d. split; [split; assumption|].
      unfold fm_call in Hx. rewrite Hg, KL in Hx. destruct (fm_controls _ _ _); [|destruct Hx]. destruct Hx as [[= ->]|[]]. reflexivity.
    + destruct (md_cb s); [destruct Hin as [Hin|[]]; discriminate|destruct Hin].
Qed.

(** ** Disabled controllers *)
Lemma covered_disabled s s' o c k v :
  midi_ok s -> is_chan c -> seven v -> covered_cc k -> md_nogm s = true -> steps s (MCc c k v) s' o ->
  s' = s /\ o = if md_cb s then [DChange 2 c k v] else [].
Proof.
  intros Hs Hc Hv Hk Hg E. destruct Hk as [Hk|Hk].
  - destruct (fm_cc_calls _ _ _ _ _ _ Hs Hc Hv Hk E) as [-> ->]. split; [reflexivity|].
    replace (flat_map (calls_at c (fm_call s k v)) (md_dev s)) with (@nil dcall); [reflexivity|].
    clear E. symmetry. induction (md_dev s) as [|d t IH]; cbn [flat_map]; [reflexivity|]. rewrite IH.
    unfold calls_at, fm_call. rewrite Hg. destruct (_ =? _); reflexivity.
  - unfold steps in E; cbn [midi_step] in E. destruct (ok_ch_get _ _ Hs Hc) as (m & Hm & _).
    destruct (midi_cc_result _ _ _ _ m _ _ Hs Hc Hv Hm E) as (o' & R & ->).
    destruct R as [m' Hf|Hk'|Hk'|Hk'|s1 Hk' E1|Hk'|s1 o1 Hk' E1|Hk' Hx|Hk' Hr|Hk'|o1 Hk' _|Hk'|devs o1 Hk' HH]; try (exfalso; lia); try congruence.
    + exfalso. unfold cc_field in Hf. rewrite Hg in Hf. destruct Hk as [-> | [-> | [-> | ->]]]; discriminate.
    + auto.
    + exfalso. apply Hk'. destruct Hk as [-> | [-> | [-> | ->]]]; cbn; tauto.
    + destruct HH as [[-> ->]|(_ & Hx & _)]; [|congruence]. destruct s; auto.
Qed.
