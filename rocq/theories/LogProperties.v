(** C53: the on-screen log queue. *)
From Verif Require Import Base LogModel LogSpec LogProofs.

(** The log is a queue of nine messages which drops the oldest when full. *)
Theorem C53_log_is_drop_oldest_queue :
  forall ops : list lop,
    exists s', log_run ops log_init = Done (snd (dq_run 9 [] ops)) s' [] /\
               lrepr s' (fst (dq_run 9 [] ops)).
Proof. exact (fun ops => log_run_refines ops _ _ lrepr_init). Qed.
Print Assumptions C53_log_is_drop_oldest_queue.

Example C53_nonvacuous :
  snd (dq_run 9 [] (map (fun i => LogAdd 0 i) (zseq 0 11) ++ repeat LogDequeue 10))
  = map (fun i => Some (0, i)) (zseq 2 9) ++ [None].
Proof. reflexivity. Qed.
