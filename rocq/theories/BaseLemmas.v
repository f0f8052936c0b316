(** Lemmas about [Base]: arrays, and a small Hoare logic for the monad. *)
From Verif Require Import Base.

Ltac Zify.zify_post_hook ::= Z.div_mod_to_equations.

(** ** Arrays *)
Lemma upd_length {A} (l : list A) n x : length (upd l n x) = length l.
Proof. revert n; induction l as [|h t IH]; intros [|n]; simpl; auto. Qed.

Lemma nth_upd_same {A} (l : list A) n x :
  (n < length l)%nat -> nth_error (upd l n x) n = Some x.
Proof. revert n; induction l as [|h t IH]; intros [|n] H; simpl in *; try lia; auto.
  apply IH; lia. Qed.

Lemma nth_upd_other {A} (l : list A) n m x :
  n <> m -> nth_error (upd l n x) m = nth_error l m.
Proof. revert n m; induction l as [|h t IH]; intros [|n] [|m] H; simpl; auto; try congruence. Qed.

Lemma Forall_upd {A} (P : A -> Prop) l n x : Forall P l -> P x -> Forall P (upd l n x).
Proof. intros Hl Hx; revert n; induction Hl as [|h t Hh Ht IH]; intros [|n]; simpl; constructor; auto. Qed.

Lemma zset_length {A} (l : list A) i x : length (zset l i x) = length l.
Proof. unfold zset; destruct (i <? 0); [reflexivity|apply upd_length]. Qed.

Lemma zget_Some {A} (l : list A) i x :
  zget l i = Some x -> 0 <= i < Z.of_nat (length l).
Proof.
  unfold zget; intros H. destruct (Z.ltb_spec i 0) as [Hlt|Hge]; [discriminate|].
  assert (Z.to_nat i < length l)%nat by (apply nth_error_Some; congruence). lia.
Qed.

Lemma zget_in_range {A} (l : list A) i :
  0 <= i < Z.of_nat (length l) -> exists x, zget l i = Some x.
Proof.
  unfold zget; intros H. destruct (Z.ltb_spec i 0) as [Hlt|Hge]; [lia|].
  destruct (nth_error l (Z.to_nat i)) as [x|] eqn:E; [eauto|].
  apply nth_error_None in E; lia.
Qed.

Lemma zget_None {A} (l : list A) i :
  zget l i = None <-> ~ (0 <= i < Z.of_nat (length l)).
Proof.
  split.
  - intros H Hr. destruct (zget_in_range l i Hr) as [x Hx]; congruence.
  - intros H. destruct (zget l i) as [x|] eqn:E; [|reflexivity].
    apply zget_Some in E; contradiction.
Qed.

Lemma zget_zset_same {A} (l : list A) i x :
  0 <= i < Z.of_nat (length l) -> zget (zset l i x) i = Some x.
Proof.
  unfold zget, zset; intros H. destruct (Z.ltb_spec i 0) as [Hlt|Hge]; [lia|].
  apply nth_upd_same; lia.
Qed.

Lemma zget_zset_other {A} (l : list A) i j x :
  i <> j -> zget (zset l i x) j = zget l j.
Proof.
  unfold zget, zset; intros H. destruct (Z.ltb_spec j 0) as [Hlt|Hge]; [reflexivity|].
  destruct (Z.ltb_spec i 0) as [Hi|Hi]; [reflexivity|].
  apply nth_upd_other; lia.
Qed.

Lemma zget_zset {A} (l : list A) i j x y :
  zget l i = Some y ->
  zget (zset l i x) j = if i =? j then Some x else zget l j.
Proof.
  intros H. destruct (Z.eqb_spec i j) as [->|Hne].
  - apply zget_zset_same. eapply zget_Some; eauto.
  - apply zget_zset_other; assumption.
Qed.

Lemma Forall_zset {A} (P : A -> Prop) l i x : Forall P l -> P x -> Forall P (zset l i x).
Proof. unfold zset; intros; destruct (i <? 0); [assumption|apply Forall_upd; assumption]. Qed.

Lemma Forall_zget {A} (P : A -> Prop) l i x : Forall P l -> zget l i = Some x -> P x.
Proof.
  unfold zget; intros HF H. destruct (i <? 0); [discriminate|].
  apply nth_error_In in H. rewrite Forall_forall in HF; auto.
Qed.

Lemma zget_app1 {A} (l1 l2 : list A) i :
  i < Z.of_nat (length l1) -> zget (l1 ++ l2) i = zget l1 i.
Proof.
  unfold zget; intros H. destruct (Z.ltb_spec i 0) as [Hlt|Hge]; [reflexivity|].
  apply nth_error_app1; lia.
Qed.

Lemma zget_app2 {A} (l1 l2 : list A) i :
  Z.of_nat (length l1) <= i -> zget (l1 ++ l2) i = zget l2 (i - Z.of_nat (length l1)).
Proof.
  unfold zget; intros H. destruct (Z.ltb_spec i 0) as [Hlt|Hge]; [lia|].
  destruct (Z.ltb_spec (i - Z.of_nat (length l1)) 0); [lia|].
  rewrite nth_error_app2 by lia. f_equal; lia.
Qed.

Lemma nth_error_ext {A} (l1 l2 : list A) :
  (forall n, nth_error l1 n = nth_error l2 n) -> l1 = l2.
Proof.
  revert l2; induction l1 as [|h t IH]; intros [|h2 t2] H; auto.
  - specialize (H O); discriminate.
  - specialize (H O); discriminate.
  - f_equal.
    + specialize (H O); simpl in H; congruence.
    + apply IH. intros n. apply (H (S n)).
Qed.

Lemma zget_ext {A} (l1 l2 : list A) :
  (forall i, 0 <= i -> zget l1 i = zget l2 i) -> l1 = l2.
Proof.
  intros H. apply nth_error_ext; intros n.
  specialize (H (Z.of_nat n)). unfold zget in H.
  destruct (Z.ltb_spec (Z.of_nat n) 0); [lia|].
  rewrite Nat2Z.id in H; apply H; lia.
Qed.

Lemma zset_zset {A} (l : list A) i x y : zset (zset l i x) i y = zset l i y.
Proof.
  apply zget_ext; intros j Hj.
  destruct (Z.eq_dec i j) as [->|Hne].
  - destruct (zget l j) eqn:E.
    + assert (Hr := zget_Some _ _ _ E).
      rewrite !zget_zset_same; rewrite ?zset_length; auto.
    + transitivity (@None A); [|symmetry]; apply zget_None; rewrite ?zset_length;
      apply zget_None in E; assumption.
  - rewrite !zget_zset_other; auto.
Qed.

Lemma zset_id {A} (l : list A) i x : zget l i = Some x -> zset l i x = l.
Proof.
  intros H; apply zget_ext; intros j Hj.
  destruct (Z.eq_dec i j) as [->|Hne].
  - rewrite zget_zset_same; [congruence|]. eapply zget_Some; eauto.
  - apply zget_zset_other; auto.
Qed.

Lemma in_zseq a n x : In x (zseq a n) <-> a <= x < a + Z.of_nat n.
Proof.
  revert a; induction n as [|n IH]; intros a; simpl; [lia|].
  rewrite IH; lia.
Qed.

Lemma zseq_length a n : length (zseq a n) = n.
Proof. revert a; induction n; intros; simpl; auto. Qed.

(** Finite sweep over an integer interval: a proof when the domain is the interval. *)
Definition allb (a : Z) (n : Z) (f : Z -> bool) : bool := forallb f (zseq a (Z.to_nat n)).

Lemma allb_spec a n f :
  allb a n f = true -> forall x, a <= x < a + n -> f x = true.
Proof.
  unfold allb; intros H x Hx. rewrite forallb_forall in H.
  apply H, in_zseq. lia.
Qed.

(** ** Hoare logic with history: [tr] is the trace before the call. *)
Definition wp {S A} (F : fault -> Prop) (m : M S A) (s : S)
           (Q : A -> S -> list event -> Prop) : Prop :=
  match m s with
  | Done a s' o => Q a s' o
  | Fault f => F f
  end.

Definition triple {S A} (F : fault -> Prop) (P : S -> list event -> Prop) (m : M S A)
           (Q : A -> S -> list event -> Prop) : Prop :=
  forall s tr, P s tr -> wp F m s (fun a s' o => Q a s' (tr ++ o)).

Definition noF : fault -> Prop := fun _ => False.

Lemma triple_ret {S A} F (P : A -> S -> list event -> Prop) (a : A) :
  triple F (P a) (ret a) P.
Proof. intros s tr H; unfold wp, ret; rewrite app_nil_r; exact H. Qed.

Lemma triple_bind {S A B} F (P : S -> list event -> Prop) (m : M S A) R (k : A -> M S B) Q :
  triple F P m R -> (forall a, triple F (R a) (k a) Q) -> triple F P (bind m k) Q.
Proof.
  intros Hm Hk s tr H. specialize (Hm s tr H). unfold wp, bind in *.
  destruct (m s) as [a s1 o1|f]; [|exact Hm].
  specialize (Hk a s1 (tr ++ o1) Hm). unfold wp in Hk.
  destruct (k a s1) as [b s2 o2|f]; [|exact Hk].
  rewrite app_assoc; exact Hk.
Qed.

Lemma triple_conseq {S A} F (P P' : S -> list event -> Prop) (m : M S A) (Q Q' : A -> S -> list event -> Prop) :
  triple F P' m Q' -> (forall s tr, P s tr -> P' s tr) ->
  (forall a s tr, Q' a s tr -> Q a s tr) -> triple F P m Q.
Proof.
  intros H HP HQ s tr Hs. specialize (H s tr (HP _ _ Hs)). unfold wp in *.
  destruct (m s); auto.
Qed.

Lemma triple_forM {S A} F (I : S -> list event -> Prop) (l : list A) f :
  (forall x, In x l -> triple F I (f x) (fun _ => I)) -> triple F I (forM l f) (fun _ => I).
Proof.
  induction l as [|x t IH]; intros H.
  - apply (triple_ret F (fun _ => I)).
  - simpl. eapply triple_bind; [apply H; left; reflexivity|].
    intros []. apply IH; intros y Hy; apply H; right; exact Hy.
Qed.

Lemma triple_runM {S Op} F (I : S -> list event -> Prop) (step : Op -> M S unit) ops :
  (forall o, In o ops -> triple F I (step o) (fun _ => I)) ->
  triple F I (runM step ops) (fun _ => I).
Proof.
  induction ops as [|x t IH]; intros H.
  - apply (triple_ret F (fun _ => I)).
  - simpl. eapply triple_bind; [apply H; left; reflexivity|].
    intros []. apply IH; intros y Hy; apply H; right; exact Hy.
Qed.

Lemma wp_bind {S A B} F (m : M S A) (k : A -> M S B) s Q :
  wp F m s (fun a s1 o1 => wp F (k a) s1 (fun b s2 o2 => Q b s2 (o1 ++ o2))) ->
  wp F (bind m k) s Q.
Proof.
  unfold wp, bind. destruct (m s) as [a s1 o1|f]; auto.
  destruct (k a s1); auto.
Qed.

Lemma wp_mono {S A} F (m : M S A) s (Q Q' : A -> S -> list event -> Prop) :
  wp F m s Q -> (forall a s' o, Q a s' o -> Q' a s' o) -> wp F m s Q'.
Proof. unfold wp; destruct (m s); auto. Qed.

Lemma runM_app {S Op} (step : Op -> M S unit) l1 l2 s :
  runM step (l1 ++ l2) s = bind (runM step l1) (fun _ => runM step l2) s.
Proof.
  revert s; induction l1 as [|x t IH]; intros s; simpl.
  - unfold bind, ret. destruct (runM step l2 s) as [[] s' o|f]; reflexivity.
  - unfold bind. destruct (step x s) as [a s1 o1|f]; [|reflexivity].
    rewrite IH. unfold bind. destruct (runM step t s1) as [b s2 o2|f]; [|reflexivity].
    destruct (runM step l2 s2) as [c s3 o3|f]; [|reflexivity].
    rewrite app_assoc; reflexivity.
Qed.
