(** Specification of the single-producer / single-consumer channel: only what
    the callers see. *)
From Verif Require Import Base RingBufModel RingSpscModel.

(** Bytes for which a write reported OK, in order. *)
Definition sent (tr : list obs) : list Z :=
  flat_map (fun o => match o with ORetW d RB_OK => [d] | _ => [] end) tr.
(** Bytes returned by reads that reported OK, in order. *)
Definition received (tr : list obs) : list Z :=
  flat_map (fun o => match o with ORetR RB_OK (Some d) => [d] | _ => [] end) tr.

Definition prefix {A} (a b : list A) : Prop := exists c, b = a ++ c.

(** Writes actually requested, in order (for "nothing is invented"). *)
Definition requested (ls : list lbl) : list Z :=
  flat_map (fun l => match l with LStartW d => [d] | _ => [] end) ls.
