From Verif Require Import Base BaseLemmas NotePriorityModel NotePrioritySpec.

(** [s] holds the list [l] (oldest first). *)
Definition np_repr (s : npstack) (l : list Z) : Prop :=
  length (np_slot s) = 10%nat /\ np_top s = Z.of_nat (length l) - 1 /\
  (length l <= 10)%nat /\ exists rest, np_slot s = l ++ rest.

Lemma np_init_repr : np_repr note_priority_init [].
Proof. unfold np_repr; cbn. repeat split; try lia. eexists; reflexivity. Qed.

Lemma s16_small' x : -32768 <= x < 32768 -> s16 x = x.
Proof. unfold s16; intros. rewrite Z.mod_small; lia. Qed.

Lemma upd_app_head {A} (l : list A) x y rest :
  upd (l ++ y :: rest) (length l) x = (l ++ [x]) ++ rest.
Proof. induction l; cbn; [reflexivity|f_equal; assumption]. Qed.

Lemma zset_app_head {A} (l : list A) x y rest i :
  i = Z.of_nat (length l) -> zset (l ++ y :: rest) i x = (l ++ [x]) ++ rest.
Proof.
  intros ->. unfold zset. destruct (Z.ltb_spec (Z.of_nat (length l)) 0); [lia|].
  rewrite Nat2Z.id. apply upd_app_head.
Qed.

Lemma np_push_ok s l p :
  np_repr s l -> 0 <= p < 256 ->
  exists s', note_priority_push p s = Done tt s' [] /\
             np_repr s' (if Nat.ltb (length l) 10 then l ++ [p] else l).
Proof.
  intros (Hlen & Htop & Hle & rest & Hsl) Hp.
  unfold note_priority_push, bind, get, NOTE_PRIORITY_LENGTH.
  destruct (Z.eqb_spec (np_top s) (10 - 1)) as [He|Hne].
  - exists s; split; [reflexivity|].
    destruct (Nat.ltb_spec (length l) 10); [lia|].
    unfold np_repr; eauto 6.
  - rewrite s16_small' by lia. unfold rd.
    destruct (zget_in_range (np_slot s) (np_top s + 1)) as [y Hy]; [lia|].
    rewrite Hy. cbn.
    eexists; split; [reflexivity|].
    destruct (Nat.ltb_spec (length l) 10); [|lia].
    unfold np_repr; cbn. rewrite zset_length, app_length; cbn [length].
    repeat split; try lia.
    destruct rest as [|r rest].
    { rewrite Hsl, app_nil_r in Hlen. lia. }
    exists rest. rewrite Hsl. unfold u8. rewrite Z.mod_small by lia.
    apply zset_app_head. lia.
Qed.

Lemma zget_last {A} (l : list A) (x : A) rest :
  zget ((l ++ [x]) ++ rest) (Z.of_nat (length l)) = Some x.
Proof.
  rewrite zget_app1 by (rewrite app_length; cbn; lia).
  rewrite zget_app2 by lia. rewrite Z.sub_diag. reflexivity.
Qed.

Lemma np_pop_ok s l :
  np_repr s l ->
  exists s', note_priority_pop s = Done (last l 0) s' [] /\ np_repr s' (removelast l).
Proof.
  intros (Hlen & Htop & Hle & rest & Hsl).
  unfold note_priority_pop, bind, get.
  destruct l as [|a l0] using rev_ind.
  - cbn in Htop. rewrite Htop. cbn. exists s; split; [reflexivity|].
    unfold np_repr; cbn; eauto 6.
  - clear IHl0. rewrite app_length in *; cbn [length] in *.
    destruct (Z.eqb_spec (np_top s) (-1)); [lia|].
    unfold rd. rewrite Hsl. replace (np_top s) with (Z.of_nat (length l0)) by lia.
    rewrite zget_last. cbn. rewrite last_last, removelast_last.
    eexists; split; [reflexivity|].
    unfold np_repr; cbn. rewrite <- Hsl. rewrite s16_small' by lia.
    repeat split; try lia. rewrite Hsl, <- app_assoc. eexists; reflexivity.
Qed.

(** Loop invariant: processed prefix [a ++ ...]; the slots hold the kept part
    [k], some garbage [g], then the unprocessed [b]. *)
Lemma np_remove_loop_ok pitch : forall b k g rest s w i,
  np_slot s = k ++ g ++ b ++ rest ->
  length (np_slot s) = 10%nat ->
  w = Z.of_nat (length k) - 1 -> i = Z.of_nat (length k + length g) ->
  exists s' rest', np_remove_loop pitch (zseq i (length b)) w s
     = Done (Z.of_nat (length (k ++ filter (fun x => negb (x =? pitch)) b)) - 1) s' [] /\
     np_slot s' = (k ++ filter (fun x => negb (x =? pitch)) b) ++ rest' /\
     length (np_slot s') = 10%nat /\ np_top s' = np_top s.
Proof.
  induction b as [|x b IH]; intros k g rest s w i Hsl Hlen -> ->; cbn [length zseq np_remove_loop].
  - exists s, (g ++ rest). cbn. rewrite app_nil_r. repeat split; auto.
  - unfold bind at 1, get. unfold bind at 1, rd.
    assert (Hx : zget (np_slot s) (Z.of_nat (length k + length g)) = Some x).
    { rewrite Hsl, app_assoc. rewrite zget_app2 by (rewrite app_length; lia).
      rewrite app_length. cbn. rewrite Z.sub_diag. reflexivity. }
    rewrite Hx. unfold ret at 1. cbn [filter].
    destruct (Z.eqb_spec x pitch) as [->|Hne]; cbn [negb].
    + destruct (IH k (g ++ [pitch]) rest s (Z.of_nat (length k) - 1)
                   (Z.of_nat (length k + length g) + 1)) as (s' & rest' & E & H1 & H2 & H3).
      { rewrite Hsl, <- app_assoc. reflexivity. }
      { assumption. } { reflexivity. } { rewrite app_length; cbn; lia. }
      rewrite E. exists s', rest'. repeat split; auto.
    + assert (Hkl : (length k <= 9)%nat).
      { rewrite Hsl, !app_length in Hlen. cbn in Hlen. lia. }
      rewrite s16_small' by lia.
      replace (Z.of_nat (length k) - 1 + 1) with (Z.of_nat (length k)) by lia.
      assert (Hw : exists y, zget (np_slot s) (Z.of_nat (length k)) = Some y)
        by (apply zget_in_range; lia).
      destruct Hw as [y Hy].
      unfold bind at 1. rewrite Hy. unfold ret at 1. unfold bind at 1, put.
      set (s1 := mkNp (zset (np_slot s) (Z.of_nat (length k)) x) (np_top s)).
      assert (Hs1 : exists g', length g' = length g /\ np_slot s1 = (k ++ [x]) ++ g' ++ b ++ rest).
      { cbn. rewrite Hsl. destruct g as [|y0 g]; cbn.
        - exists []. split; [reflexivity|]. apply zset_app_head; reflexivity.
        - exists (g ++ [x]). split; [rewrite app_length; cbn; lia|].
          rewrite zset_app_head by reflexivity. rewrite <- !app_assoc. reflexivity. }
      destruct Hs1 as (g' & Hg' & Hs1).
      destruct (IH (k ++ [x]) g' rest s1 (Z.of_nat (length k))
                   (Z.of_nat (length k + length g) + 1)) as (s' & rest' & E & H1 & H2 & H3).
      { exact Hs1. }
      { cbn. rewrite zset_length; assumption. }
      { rewrite app_length; cbn; lia. }
      { rewrite app_length; cbn; lia. }
      rewrite <- app_assoc in E, H1. cbn [app] in E, H1.
      rewrite E. exists s', rest'. repeat split; auto.
      rewrite H1, <- !app_assoc. reflexivity.
Qed.

Lemma filter_length_le {A} (f : A -> bool) l : (length (filter f l) <= length l)%nat.
Proof. induction l; cbn; [lia|]. destruct (f a); cbn; lia. Qed.

Lemma np_remove_ok s l p :
  np_repr s l ->
  exists s', note_priority_remove p s = Done tt s' [] /\
             np_repr s' (filter (fun x => negb (x =? p)) l).
Proof.
  intros (Hlen & Htop & Hle & rest & Hsl).
  unfold note_priority_remove. unfold bind at 1, get.
  replace (Z.to_nat (np_top s + 1)) with (length l) by lia.
  destruct (np_remove_loop_ok p l [] [] rest s (-1) 0) as (s' & rest' & E & H1 & H2 & H3); auto.
  unfold bind at 1. rewrite E. cbn. eexists; split; [reflexivity|].
  unfold np_repr; cbn in *. assert (H := filter_length_le (fun x => negb (x =? p)) l).
  repeat split; auto; try lia. exists rest'; assumption.
Qed.

Lemma np_count_ok s l : np_repr s l -> note_priority_count s = Z.of_nat (length l).
Proof. intros (? & Ht & ? & _). unfold note_priority_count, u8. rewrite Z.mod_small; lia. Qed.
Lemma np_full_ok s l : np_repr s l -> note_priority_isFull s = Nat.eqb (length l) 10.
Proof. intros (? & Ht & ? & _). unfold note_priority_isFull, NOTE_PRIORITY_LENGTH. lia. Qed.

Lemma np_step_refines s l o :
  np_repr s l -> nop_wf o ->
  exists s', np_step o s = Done (snd (held_step l o)) s' [] /\ np_repr s' (fst (held_step l o)).
Proof.
  intros H Hw. destruct o as [p| |p| |]; cbn [np_step held_step fst snd].
  - destruct (np_push_ok s l p H Hw) as (s' & E & R). exists s'. unfold bind. rewrite E. auto.
  - destruct (np_pop_ok s l H) as (s' & E & R). exists s'. unfold bind. rewrite E. auto.
  - destruct (np_remove_ok s l p H) as (s' & E & R). exists s'. unfold bind. rewrite E. auto.
  - exists s. unfold bind, gets. cbn. rewrite (np_count_ok s l H). auto.
  - exists s. unfold bind, gets. cbn. rewrite (np_full_ok s l H). auto.
Qed.

Lemma np_run_refines ops : forall s l,
  np_repr s l -> Forall nop_wf ops ->
  exists s', np_run ops s = Done (snd (held_run l ops)) s' [] /\ np_repr s' (fst (held_run l ops)).
Proof.
  induction ops as [|o t IH]; intros s l H Hw; [exists s; split; auto|].
  inversion Hw; subst. destruct (np_step_refines s l o H) as (s1 & E1 & R1); auto.
  cbn [np_run held_run]. unfold bind. rewrite E1.
  destruct (held_step l o) as [l1 x]; cbn [fst snd] in *.
  destruct (IH s1 l1 R1) as (s2 & E2 & R2); auto. rewrite E2.
  destruct (held_run l1 t) as [l2 xs]; cbn [fst snd] in *. exists s2. split; [reflexivity|assumption].
Qed.

Lemma held_run_bounded ops : forall l, (length l <= 10)%nat -> (length (fst (held_run l ops)) <= 10)%nat.
Proof.
  induction ops as [|o t IH]; intros l H; [exact H|].
  cbn [held_run]. assert (H1 : (length (fst (held_step l o)) <= 10)%nat).
  { destruct o; cbn [held_step fst]; auto.
    - destruct (Nat.ltb_spec (length l) 10); [rewrite app_length; cbn; lia|assumption].
    - destruct l using rev_ind; [cbn; lia|]. rewrite removelast_last. rewrite app_length in H. lia.
    - eapply Nat.le_trans; [apply filter_length_le|assumption]. }
  destruct (held_step l o) as [l1 x]; cbn [fst] in *. specialize (IH l1 H1).
  destruct (held_run l1 t); assumption.
Qed.
