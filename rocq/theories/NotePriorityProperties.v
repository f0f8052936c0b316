(** C28: the held-note list. *)
From Verif Require Import Base NotePriorityModel NotePrioritySpec NotePriorityProofs.

Theorem C28_held_notes_refine_list :
  forall ops : list nop, Forall nop_wf ops ->
    exists s', np_run ops note_priority_init = Done (snd (held_run [] ops)) s' [] /\
               np_repr s' (fst (held_run [] ops)).
Proof. exact (fun ops => np_run_refines ops _ _ np_init_repr). Qed.
Print Assumptions C28_held_notes_refine_list.

Theorem C28_at_most_ten :
  forall ops : list nop, (length (fst (held_run [] ops)) <= 10)%nat.
Proof. exact (fun ops => held_run_bounded ops [] (Nat.le_0_l 10)). Qed.
Print Assumptions C28_at_most_ten.

Example C28_nonvacuous :
  Forall nop_wf [NPush 60; NPush 64; NPush 60; NRemove 60; NCount; NPop; NPop] /\
  snd (held_run [] [NPush 60; NPush 64; NPush 60; NRemove 60; NCount; NPop; NPop])
  = [NUnit; NUnit; NUnit; NUnit; NNum 1; NNote 64; NNote 0].
Proof. split; [repeat constructor; cbn; lia | reflexivity]. Qed.
