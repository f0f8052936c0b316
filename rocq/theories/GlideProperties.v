(** Lines played with portamento, at the chip. *)
From Verif Require Import Base MidiModel MidiSpec SynthSpec SoundSpec DevModel DevSpec AppModel AppSpec AppExampleProofs GlideSpec GlideRunProofs GlideExampleProofs.

(** ** C110: with portamento on, keys pressed while another is held are slid to *)
(** Only part of the statement holds, see the refutations below.  In the static mapping
    on an FM channel that is silent: the first key is struck; from then on, whatever
    [legato] allows follows, the channel is neither struck again nor silenced, and its
    frequency is that of the pitch the line has reached, which moves towards the newest
    key by the portamento speed each frame, bent and tuned as set.
    Missing: releases of an older key (C110_legato_refuted), controllers of the line's
    own channel other than bend, keys below 12, the sample channel, re-assigned voices,
    raw register writes. *)
Theorem C110_line_partial : forall r hw mem c, 0 <= c < 6 -> forall before p v more,
  rom_ok r -> mem_ok mem -> Forall aop_ok (before ++ AMsg (MNoteOn c p v) :: more) -> 12 <= p -> 1 <= v ->
  without raw_write before -> without remaps before -> without (is_cc 78) before -> without odd_envelope before ->
  tn_glide (tuned (map message before)) c = true ->
  filter (fun k => Z.eqb (fst k) c) (held (map message before)) = [] ->
  0 <= bent (map message before) c p -> 0 <= pitched (map message before) c p -> 11 <= pitched (map message before) c p / 100 <= 106 ->
  let rate := speed (map message before) c in
  legato_all rate c (mkLine [p] (100 * p)) more ->
  let all := before ++ AMsg (MNoteOn c p v) :: more in
  let at_ := l_at (line_played rate c p more) in
  let x := line_pitch (map message all) c at_ in
  0 <= line_bent (map message all) c at_ < 25600 -> 0 <= x < 25600 ->
  exists s0 tr0 s1 o1 s o, history r hw mem before s0 tr0 /\
    history r hw mem (before ++ [AMsg (MNoteOn c p v)]) s1 (tr0 ++ o1) /\ key_state o1 c = Some true /\
    history r hw mem all s (tr0 ++ o1 ++ o) /\ key_state o c = None /\
    chip_freq (tr0 ++ o1 ++ o) c = Some (fm_note r (x / 100) (x mod 100)).
Proof. exact glides_heard. Qed.
Print Assumptions C110_line_partial.

(** Letting go of the last key of such a line silences the channel. *)
Theorem C110_ends_partial : forall r hw mem c, 0 <= c < 6 -> forall before p v more,
  rom_ok r -> mem_ok mem -> Forall aop_ok (before ++ AMsg (MNoteOn c p v) :: more) -> 12 <= p -> 1 <= v ->
  without raw_write before -> without remaps before -> without (is_cc 78) before -> without odd_envelope before ->
  tn_glide (tuned (map message before)) c = true ->
  filter (fun k => Z.eqb (fst k) c) (held (map message before)) = [] ->
  0 <= bent (map message before) c p -> 0 <= pitched (map message before) c p -> 11 <= pitched (map message before) c p / 100 <= 106 ->
  let rate := speed (map message before) c in
  legato_all rate c (mkLine [p] (100 * p)) more ->
  let all := before ++ AMsg (MNoteOn c p v) :: more in
  let l := line_played rate c p more in
  released (newest l) (l_keys l) = [] ->
  exists s tr s' o, history r hw mem all s tr /\ history r hw mem (all ++ [AMsg (MNoteOff c (newest l))]) s' (tr ++ o) /\
    key_state o c = Some false.
Proof. exact glide_ends. Qed.
Print Assumptions C110_ends_partial.

(** Enough frames bring the line to its newest key, where it stays. *)
Theorem C110_arrives : forall rate c p more n, 1 <= rate ->
  let l := line_played rate c p more in
  Z.abs (100 * newest l - l_at l) <= rate * Z.of_nat n ->
  line_played rate c p (more ++ repeat AFrame n) = mkLine (l_keys l) (100 * newest l).
Proof. exact line_arrives. Qed.
Print Assumptions C110_arrives.

(** The hypotheses hold of a line up a fifth and back, bent on the way, while another
    channel plays. *)
Example C110_nonvacuous : Forall aop_ok (slow ++ AMsg (MNoteOn 0 60 100) :: sung) /\
  without raw_write slow /\ without remaps slow /\ without (is_cc 78) slow /\ without odd_envelope slow /\
  tn_glide (tuned (map message slow)) 0 = true /\ held (map message slow) = [] /\ speed (map message slow) 0 = 47 /\
  bent (map message slow) 0 60 = 6000 /\ pitched (map message slow) 0 60 = 6000 /\
  legato_all 47 0 (mkLine [60] 6000) sung /\ line_played 47 0 60 sung = mkLine [60] 6188 /\ released 60 [60] = [] /\
  let ms := map message (slow ++ AMsg (MNoteOn 0 60 100) :: sung) in line_bent ms 0 6188 = 6207 /\ line_pitch ms 0 6188 = 6207.
Proof. exact sung_example. Qed.

(** False: a key pressed while another is held is always slid to.  When the older of two
    keys has been let go the next key is struck anew, although the second is still down
    (midi.c:484-508 forgets it). *)
Theorem C110_legato_refuted : ~ forall r hw mem ops c p v s0 tr0 s o, 0 <= c < 6 -> 12 <= p -> 0 < v ->
  history r hw mem ops s0 tr0 -> history r hw mem (ops ++ [AMsg (MNoteOn c p v)]) s (tr0 ++ o) ->
  without raw_write ops -> without remaps ops -> without (is_cc 78) ops -> tn_glide (tuned (map message ops)) c = true ->
  (exists k, In (c, k) (held (map message ops)) /\ 12 <= k) -> key_state tr0 c = Some true -> key_state o c = None.
Proof. exact legato_refuted. Qed.
Print Assumptions C110_legato_refuted.

(** False: a glide moves by the portamento speed.  Downwards the last semitone is jumped:
    at one cent a frame, a semitone takes one frame instead of a hundred. *)
Theorem C110_smooth_refuted : speed (map message creeping) 0 = 1 /\ exists s0 tr0 s o,
  history (shipped false) no_cartridge blank_memory creeping s0 tr0 /\
  history (shipped false) no_cartridge blank_memory (creeping ++ [AFrame]) s (tr0 ++ o) /\
  chip_freq tr0 0 = Some (fm_note (shipped false) 61 0) /\ chip_freq (tr0 ++ o) 0 = Some (fm_note (shipped false) 60 0) /\
  fm_note (shipped false) 61 0 <> fm_note (shipped false) 60 0.
Proof. exact creeping_jumps. Qed.
Print Assumptions C110_smooth_refuted.
