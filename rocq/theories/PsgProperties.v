(** C11, C24-C27, C66, C67: PSG loudness, envelopes and the chip mirror.
    Histories start with the reset performed at boot. *)
From Verif Require Import Base PitchSpec PsgModel PsgSpec PsgProofs PsgClaimsProofs PsgEnvProofs.

(** The envelope table of the ROM meets the hypothesis used below. *)
Example rom_table_ok : envs_ok ENVELOPES.
Proof. exact rom_envs_ok. Qed.

(** C11 *)
Theorem C11_loudness_law : psg_law psg_level.
Proof. exact c11_law. Qed.
Print Assumptions C11_loudness_law.

Theorem C11_sent_level :
  forall (pal : bool) (envs : list (list Z)), envs_ok envs ->
  forall (ops : list pop) (c : Z) (s : psg) (tr : list event),
    Forall pop_ok ops -> ~ In PReset ops -> Forall (fun op => ~ is_load op) ops -> is_psg c ->
    psg_run pal envs (PReset :: ops) psg0 = Done tt s tr ->
    exists ch, zget (ps_chans s) c = Some ch /\
      (g_on ch = false -> chip_att att_at_boot tr c = 15) /\
      (g_on ch = true -> exists b, peek envs (ps_user s) (g_step ch) = Some b /\ 0 <= b < 256 /\
         chip_att att_at_boot tr c = psg_level (asked_volume c 127 ops) (asked_velocity c 127 ops) (b mod 16) /\
         (0 <= asked_pitch c 0 ops + nth (Z.to_nat (b / 16)) shift_cents 0 < 25600 ->
          chip_tone tone_at_boot tr c = psg_tone pal (asked_pitch c 0 ops + nth (Z.to_nat (b / 16)) shift_cents 0))).
Proof. exact c11_c66. Qed.
Print Assumptions C11_sent_level.

(** C66: the same theorem under its own name, for the pitch only. *)
Theorem C66_shifted_pitch :
  forall (pal : bool) (envs : list (list Z)), envs_ok envs ->
  forall (ops : list pop) (c : Z) (s : psg) (tr : list event),
    Forall pop_ok ops -> ~ In PReset ops -> Forall (fun op => ~ is_load op) ops -> is_psg c ->
    psg_run pal envs (PReset :: ops) psg0 = Done tt s tr ->
    exists ch, zget (ps_chans s) c = Some ch /\
      (g_on ch = true -> exists b, peek envs (ps_user s) (g_step ch) = Some b /\
         (0 <= asked_pitch c 0 ops + nth (Z.to_nat (b / 16)) shift_cents 0 < 25600 ->
          chip_tone tone_at_boot tr c = psg_tone pal (asked_pitch c 0 ops + nth (Z.to_nat (b / 16)) shift_cents 0))).
Proof. exact c66_only. Qed.
Print Assumptions C66_shifted_pitch.

Example C11_C66_nonvacuous :
  let ops := [PVolume 1 100; PNoteOn 1 69 0 90] ++ repeat PTick 26 ++ [PPitch 1 70 25] in
  exists s tr ch, psg_run false ENVELOPES (PReset :: ops) psg0 = Done tt s tr /\
    zget (ps_chans s) 1 = Some ch /\ g_on ch = true /\ peek ENVELOPES (ps_user s) (g_step ch) = Some 0x11 /\
    asked_pitch 1 0 ops = 7025 /\ chip_att att_at_boot tr 1 = 3 /\ chip_tone tone_at_boot tr 1 = psg_tone false 7030 /\
    psg_level 100 90 1 = 3.
Proof. eexists; eexists; eexists. split; [vm_compute; reflexivity|]. repeat split; vm_compute; reflexivity. Qed.

(** C24 *)
Theorem C24_envelope_safety :
  forall (pal : bool) (envs : list (list Z)), envs_ok envs ->
  forall ops : list pop, Forall pop_ok ops ->
    exists s tr, psg_run pal envs (PReset :: ops) psg0 = Done tt s tr /\ length (ps_chans s) = 4%nat /\
      forall c ch, zget (ps_chans s) c = Some ch ->
        inside envs (ps_user s) (g_step ch) /\ (g_loop ch = ENull \/ inside envs (ps_user s) (g_loop ch)).
Proof. exact c24. Qed.
Print Assumptions C24_envelope_safety.

(** A short envelope is loaded while a long user envelope is playing. *)
Example C24_nonvacuous :
  let ops := [PLoad (repeat 0 20 ++ [255]); PNoteOn 0 60 0 127] ++ repeat PTick 10 ++ [PLoad [3; 255]; PTick] in
  exists s tr ch, psg_run false ENVELOPES (PReset :: ops) psg0 = Done tt s tr /\
    zget (ps_chans s) 0 = Some ch /\ g_step ch = EUser 11 /\ g_on ch = true.
Proof. eexists; eexists; eexists. split; [vm_compute; reflexivity|]. repeat split; vm_compute; reflexivity. Qed.

(** C25: [n] frames remain to the end marker; without a loop, none. *)
Theorem C25_release_silences :
  forall (pal : bool) (envs : list (list Z)), envs_ok envs ->
  forall (ops : list pop) (rel : pop) (more : list pop) (c : Z) (s0 : psg) (tr0 : list event) (ch0 : psgchan) (n : Z) (s : psg) (tr : list event),
    Forall pop_ok (ops ++ rel :: more) -> ~ In PReset (ops ++ rel :: more) ->
    psg_run pal envs (PReset :: ops) psg0 = Done tt s0 tr0 -> zget (ps_chans s0) c = Some ch0 ->
    release c rel -> (forall op, In op more -> ~ retrigger c op /\ ~ is_load op) ->
    (g_loop ch0 = ENull \/ (to_end envs (ps_user s0) (g_step ch0) n /\ n < ticks more)) ->
    psg_run pal envs (PReset :: ops ++ rel :: more) psg0 = Done tt s tr ->
    chip_att att_at_boot tr c = 15.
Proof. exact c25. Qed.
Print Assumptions C25_release_silences.

(** The same with envelopes being loaded meanwhile. *)
Theorem C25_release_silences_despite_loads :
  forall (pal : bool) (envs : list (list Z)), envs_ok envs ->
  forall (ops : list pop) (rel : pop) (more : list pop) (c : Z) (s0 : psg) (tr0 : list event) (ch0 : psgchan) (n : Z) (s : psg) (tr : list event),
    Forall pop_ok (ops ++ rel :: more) -> ~ In PReset (ops ++ rel :: more) ->
    psg_run pal envs (PReset :: ops) psg0 = Done tt s0 tr0 -> zget (ps_chans s0) c = Some ch0 ->
    release c rel -> (forall op, In op more -> ~ retrigger c op) ->
    (g_loop ch0 = ENull \/ (remaining envs (g_step ch0) n /\ n < ticks more)) ->
    psg_run pal envs (PReset :: ops ++ rel :: more) psg0 = Done tt s tr ->
    chip_att att_at_boot tr c = 15.
Proof. exact c25_loads. Qed.
Print Assumptions C25_release_silences_despite_loads.

(** With the envelopes of the ROM or any user envelope, 256 frames suffice. *)
Theorem C25_silent_within_256_frames :
  forall (pal : bool) (ops : list pop) (rel : pop) (more : list pop) (c : Z) (s : psg) (tr : list event),
    Forall pop_ok (ops ++ rel :: more) -> ~ In PReset (ops ++ rel :: more) ->
    release c rel -> (forall op, In op more -> ~ retrigger c op) -> 256 <= ticks more ->
    psg_run pal ENVELOPES (PReset :: ops ++ rel :: more) psg0 = Done tt s tr ->
    chip_att att_at_boot tr c = 15.
Proof. exact c25_rom. Qed.
Print Assumptions C25_silent_within_256_frames.

Example C25_nonvacuous :
  let ops := [PNoteOn 2 60 0 127] ++ repeat PTick 30 in
  (exists s tr, psg_run false ENVELOPES (PReset :: ops ++ PNoteOff 2 60 :: repeat PTick 14) psg0 = Done tt s tr /\
     chip_att att_at_boot tr 2 = 14) /\
  (exists s tr, psg_run false ENVELOPES (PReset :: ops ++ PNoteOff 2 60 :: repeat PTick 18) psg0 = Done tt s tr /\
     chip_att att_at_boot tr 2 = 15) /\
  (exists s tr ch, psg_run false ENVELOPES (PReset :: ops) psg0 = Done tt s tr /\ zget (ps_chans s) 2 = Some ch /\
     to_end ENVELOPES (ps_user s) (g_step ch) 17).
Proof.
  split; [|split].
  - eexists; eexists. split; [vm_compute; reflexivity|vm_compute; reflexivity].
  - eexists; eexists. split; [vm_compute; reflexivity|vm_compute; reflexivity].
  - eexists; eexists; eexists. split; [vm_compute; reflexivity|]. split; [vm_compute; reflexivity|].
    split; [lia|vm_compute; reflexivity].
Qed.

(** C26 *)
Theorem C26_held_note_keeps_sounding :
  forall (pal : bool) (envs : list (list Z)), envs_ok envs ->
  forall (ops more : list pop) (c : Z) (s0 : psg) (tr0 : list event) (ch0 : psgchan),
    Forall pop_ok (ops ++ more) ->
    psg_run pal envs (PReset :: ops) psg0 = Done tt s0 tr0 -> zget (ps_chans s0) c = Some ch0 ->
    g_on ch0 = true -> g_rel ch0 = false -> g_loop ch0 <> ENull ->
    (forall op, In op more -> ~ release c op /\ ~ retrigger c op) ->
    exists s tr ch, psg_run pal envs more s0 = Done tt s tr /\ zget (ps_chans s) c = Some ch /\
      g_on ch = true /\ g_rel ch = false /\ g_loop ch <> ENull.
Proof. exact c26. Qed.
Print Assumptions C26_held_note_keeps_sounding.

Example C26_nonvacuous :
  exists s tr ch, psg_run false ENVELOPES (PReset :: [PProgram 3 80; PNoteOn 3 60 0 127; PTick]) psg0 = Done tt s tr /\
    zget (ps_chans s) 3 = Some ch /\ g_on ch = true /\ g_rel ch = false /\ g_loop ch = ERom 80 2.
Proof. eexists; eexists; eexists. split; [vm_compute; reflexivity|]. repeat split; vm_compute; reflexivity. Qed.

(** C27 for every history without a later reset. *)
Theorem C27_chip_mirror_partial :
  forall (pal : bool) (envs : list (list Z)), envs_ok envs ->
  forall (ops : list pop) (c : Z) (s : psg) (tr : list event),
    Forall pop_ok ops -> ~ In PReset ops -> is_psg c ->
    psg_run pal envs (PReset :: ops) psg0 = Done tt s tr ->
    exists ch, zget (ps_chans s) c = Some ch /\
      chip_att att_at_boot tr c = g_att ch /\ chip_tone tone_at_boot tr c = g_freq ch /\
      0 <= chip_att att_at_boot tr c <= 15 /\ 0 <= chip_tone tone_at_boot tr c < 1024 /\
      (g_on ch = false -> chip_att att_at_boot tr c = 15).
Proof. exact c27. Qed.
Print Assumptions C27_chip_mirror_partial.

(** A reset while a note sounds leaves the chip sounding: the channel is
    recorded as silent but no attenuation is sent, and a later note off or any
    number of frames changes nothing. *)
Theorem C27_chip_mirror_refuted :
  forall (pal : bool) (frames : nat),
    exists s tr ch, psg_run pal ENVELOPES (PReset :: [PNoteOn 0 69 0 127; PReset; PNoteOff 0 69] ++ repeat PTick frames) psg0 = Done tt s tr /\
      zget (ps_chans s) 0 = Some ch /\ g_on ch = false /\ g_att ch = 15 /\ chip_att att_at_boot tr 0 = 0.
Proof. exact c27_refuted. Qed.
Print Assumptions C27_chip_mirror_refuted.

Example C27_nonvacuous :
  exists s tr, psg_run true ENVELOPES (PReset :: [PNoteOn 0 69 0 127; PNoteOn 1 40 0 127; PTick; PVolume 0 64]) psg0 = Done tt s tr /\
    chip_att att_at_boot tr 0 = 3 /\ chip_tone tone_at_boot tr 0 = 251 /\ chip_att att_at_boot tr 1 = 15.
Proof. eexists; eexists. split; [vm_compute; reflexivity|]. repeat split; vm_compute; reflexivity. Qed.

(** C67: an envelope is played one byte per frame. *)
Theorem C67_plain_envelope :
  forall (pal : bool) (envs : list (list Z)), envs_ok envs ->
  forall (before : list pop) (c p ce v : Z) (more : list pop) (pre junk : list Z) (s : psg) (tr : list event),
    Forall pop_ok (before ++ PNoteOn c p ce v :: more) -> ~ In PReset before -> 45 <= p ->
    (forall op, In op more -> quiet c op) ->
    selected envs c before = Some (pre ++ 255 :: junk) -> Forall data_byte pre ->
    psg_run pal envs (PReset :: before ++ PNoteOn c p ce v :: more) psg0 = Done tt s tr ->
    plays pal c (before ++ PNoteOn c p ce v :: more) tr (once pre (ticks more)).
Proof. exact c67_once. Qed.
Print Assumptions C67_plain_envelope.

Theorem C67_held_loop :
  forall (pal : bool) (envs : list (list Z)), envs_ok envs ->
  forall pre body post junk : list Z,
    Forall data_byte pre -> Forall data_byte body -> Forall data_byte post -> body <> [] ->
  forall (before : list pop) (c p ce v : Z) (more : list pop) (s : psg) (tr : list event),
    Forall pop_ok (before ++ PNoteOn c p ce v :: more) -> ~ In PReset before -> 45 <= p ->
    (forall op, In op more -> quiet c op) ->
    selected envs c before = Some (loop_env pre body post junk) ->
    psg_run pal envs (PReset :: before ++ PNoteOn c p ce v :: more) psg0 = Done tt s tr ->
    plays pal c (before ++ PNoteOn c p ce v :: more) tr (held pre body (ticks more)).
Proof. exact c67_held. Qed.
Print Assumptions C67_held_loop.

Theorem C67_released_loop :
  forall (pal : bool) (envs : list (list Z)), envs_ok envs ->
  forall pre body post junk : list Z,
    Forall data_byte pre -> Forall data_byte body -> Forall data_byte post -> body <> [] ->
  forall (before : list pop) (c p ce v : Z) (more : list pop) (rel : pop) (after : list pop) (s : psg) (tr : list event),
    Forall pop_ok (before ++ PNoteOn c p ce v :: more ++ rel :: after) -> ~ In PReset before -> 45 <= p ->
    (forall op, In op (more ++ after) -> quiet c op) -> release c rel ->
    selected envs c before = Some (loop_env pre body post junk) ->
    psg_run pal envs (PReset :: before ++ PNoteOn c p ce v :: more ++ rel :: after) psg0 = Done tt s tr ->
    plays pal c (before ++ PNoteOn c p ce v :: more ++ rel :: after) tr (released pre body post (ticks more) (ticks after)).
Proof. exact c67_released. Qed.
Print Assumptions C67_released_loop.

Example C67_nonvacuous :
  ENVELOPE_0 = loop_env (firstn 23 ENVELOPE_0) [1; 1; 0x11; 0x11; 1; 1; 0x81; 0x81] [1;2;3;4;5;6;7;8;9;10;11;12;13;14;15] [] /\
  selected ENVELOPES 1 [PProgram 1 5] = Some ENVELOPE_0 /\
  held (firstn 23 ENVELOPE_0) [1; 1; 0x11; 0x11; 1; 1; 0x81; 0x81] 1001 = Some 0x11 /\
  released (firstn 23 ENVELOPE_0) [1; 1; 0x11; 0x11; 1; 1; 0x81; 0x81] [1;2;3;4;5;6;7;8;9;10;11;12;13;14;15] 29 6 = Some 5 /\
  released (firstn 23 ENVELOPE_0) [1; 1; 0x11; 0x11; 1; 1; 0x81; 0x81] [1;2;3;4;5;6;7;8;9;10;11;12;13;14;15] 10 0 = None /\
  selected ENVELOPES 1 [PLoad [2; 4; 255; 9]] = Some ([2; 4] ++ 255 :: [9]) /\ once [2; 4] 1 = Some 4 /\ once [2; 4] 2 = None.
Proof. repeat split; vm_compute; reflexivity. Qed.
