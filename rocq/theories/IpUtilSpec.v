(** Decimal text, independent of the conversion algorithm. *)
From Verif Require Import Base.

Definition digit (c : Z) : Prop := 48 <= c <= 57.
Definition text_value (s : list Z) : Z := fold_left (fun acc c => acc * 10 + (c - 48)) s 0.

(** [s] is the canonical decimal numeral of [n]. *)
Definition decimal (s : list Z) (n : Z) : Prop :=
  s <> [] /\ Forall digit s /\ text_value s = n /\
  (hd 0 s = 48 -> length s = 1%nat).
