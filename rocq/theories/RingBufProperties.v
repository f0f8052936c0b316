(** C01: the ring buffer is a bounded FIFO. *)
From Verif Require Import Base RingBufModel RingBufSpec RingBufProofs.

(** Whatever the previous content of the ring object ([s0]) and of the array,
    after initialisation every sequence of calls returns exactly what a
    first-in first-out queue of capacity n-1 returns; no call faults. *)
Theorem C01_ring_is_bounded_fifo :
  forall (arr : list Z) (n : Z) (ops : list rop) (s0 : ring),
    2 <= n <= 65535 -> n <= Z.of_nat (length arr) -> Forall rop_wf ops ->
    exists r', bind (ring_buf_init (Some arr) n) (fun _ => ring_run ops) s0
               = Done (snd (fifo_run (Z.to_nat (n - 1)) [] ops)) r' [].
Proof. exact ring_fifo_main. Qed.
Print Assumptions C01_ring_is_bounded_fifo.

(** Sanity of the specification itself: the queue delivers exactly what it
    accepted, in order. *)
Theorem C01_fifo_conserves_bytes :
  forall (cap : nat) (ops : list rop) (q : list Z),
    let (q', rs) := fifo_run cap q ops in q ++ accepted ops rs = delivered rs ++ q'.
Proof. exact fifo_conservation. Qed.
Print Assumptions C01_fifo_conserves_bytes.

Example C01_nonvacuous :
  Forall rop_wf [RWrite 1; RWrite 2; RWrite 3; RRead; RWrite 4; RRead; RRead; RRead; RAvail] /\
  snd (fifo_run 2 [] [RWrite 1; RWrite 2; RWrite 3; RRead; RWrite 4; RRead; RRead; RRead; RAvail])
  = [ResWrite RB_OK; ResWrite RB_OK; ResWrite RB_FULL; ResRead RB_OK (Some 1); ResWrite RB_OK;
     ResRead RB_OK (Some 2); ResRead RB_OK (Some 4); ResRead RB_EMPTY None; ResNum 2].
Proof. split; [repeat constructor; cbn; unfold is_byte; lia | reflexivity]. Qed.
