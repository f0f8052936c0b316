(** Model of src/midi_psg.c: the PSG voices and their software envelopes. *)
From Verif Require Import Base PitchModel.

(** ATTENUATIONS, midi_psg.c:27-31 *)
Definition ATTENUATIONS : list Z := [15; 14; 14; 14; 13; 13; 13; 13; 12; 12; 12; 11; 11; 11; 11; 10;
    10; 10; 10; 9; 9; 9; 9; 9; 8; 8; 8; 8; 8; 7; 7; 7; 7; 7; 7; 6; 6; 6; 6; 6; 6; 5; 5; 5; 5; 5; 5;
    5; 5; 4; 4; 4; 4; 4; 4; 4; 4; 4; 3; 3; 3; 3; 3; 3; 3; 3; 3; 3; 3; 3; 2; 2; 2; 2; 2; 2; 2; 2; 2;
    2; 2; 2; 2; 2; 2; 1; 1; 1; 1; 1; 1; 1; 1; 1; 1; 1; 1; 1; 1; 1; 1; 1; 1; 1; 1; 1; 1; 1; 1; 0; 0;
    0; 0; 0; 0; 0; 0; 0; 0; 0; 0; 0; 0; 0; 0; 0; 0; 0].

(** Constants: midi_psg.h:7-9, midi_psg.c:11, PSG_ATTENUATION_SILENCE and
    MAX_ATTENUATION 15, MAX_MIDI_VOLUME 127 (midi.h:6). *)
Definition EEF_END := 0xFF.
Definition EEF_LOOP_START := 0xFE.
Definition EEF_LOOP_END := 0xFD.
Definition PSG_SILENCE := 15.
Definition MIN_MIDI_KEY := 45.

(** A [const u8*] into an envelope: null, into userDefinedEnvelope, or into
    ROM envelope number [k]. *)
Inductive eptr : Type := ENull | EUser (i : Z) | ERom (k i : Z).

(** struct MidiPsgChannel, midi_psg.c:33-46 *)
Record psgchan := mkPsg {
  g_num : Z; g_pitch : Z; g_cents : Z; g_att : Z; g_freq : Z; g_on : bool;
  g_vol : Z; g_vel : Z; g_env : Z; g_step : eptr; g_loop : eptr; g_rel : bool }.

(** Statics, midi_psg.c:48-51; [ps_userp] is "userDefinedEnvelopePtr != NULL"
    (it is only ever NULL or userDefinedEnvelope). *)
Record psg := mkPsgSt { ps_chans : list psgchan; ps_user : list Z; ps_userp : bool }.

Definition g_set_pc c p ce := mkPsg (g_num c) p ce (g_att c) (g_freq c) (g_on c) (g_vol c) (g_vel c) (g_env c) (g_step c) (g_loop c) (g_rel c).
Definition g_set_att c v := mkPsg (g_num c) (g_pitch c) (g_cents c) v (g_freq c) (g_on c) (g_vol c) (g_vel c) (g_env c) (g_step c) (g_loop c) (g_rel c).
Definition g_set_freq c v := mkPsg (g_num c) (g_pitch c) (g_cents c) (g_att c) v (g_on c) (g_vol c) (g_vel c) (g_env c) (g_step c) (g_loop c) (g_rel c).
Definition g_set_on c v := mkPsg (g_num c) (g_pitch c) (g_cents c) (g_att c) (g_freq c) v (g_vol c) (g_vel c) (g_env c) (g_step c) (g_loop c) (g_rel c).
Definition g_set_vol c v := mkPsg (g_num c) (g_pitch c) (g_cents c) (g_att c) (g_freq c) (g_on c) v (g_vel c) (g_env c) (g_step c) (g_loop c) (g_rel c).
Definition g_set_vel c v := mkPsg (g_num c) (g_pitch c) (g_cents c) (g_att c) (g_freq c) (g_on c) (g_vol c) v (g_env c) (g_step c) (g_loop c) (g_rel c).
Definition g_set_env c v := mkPsg (g_num c) (g_pitch c) (g_cents c) (g_att c) (g_freq c) (g_on c) (g_vol c) (g_vel c) v (g_step c) (g_loop c) (g_rel c).
Definition g_set_step c v := mkPsg (g_num c) (g_pitch c) (g_cents c) (g_att c) (g_freq c) (g_on c) (g_vol c) (g_vel c) (g_env c) v (g_loop c) (g_rel c).
Definition g_set_loop c v := mkPsg (g_num c) (g_pitch c) (g_cents c) (g_att c) (g_freq c) (g_on c) (g_vol c) (g_vel c) (g_env c) (g_step c) v (g_rel c).
Definition g_set_rel c v := mkPsg (g_num c) (g_pitch c) (g_cents c) (g_att c) (g_freq c) (g_on c) (g_vol c) (g_vel c) (g_env c) (g_step c) (g_loop c) v.

Definition is_null (p : eptr) : bool := match p with ENull => true | _ => false end.

(** [p + 1]; only used right after a successful read through [p]. *)
Definition pnext (p : eptr) : eptr :=
  match p with ENull => ENull | EUser i => EUser (i + 1) | ERom k i => ERom k (i + 1) end.

Section Psg.
(** Television system and the table [envelopes] (midi_psg.c:50). *)
Context (pal : bool) (envs : list (list Z)).

(** Functions on one channel, [MidiPsgChannel*]: the state is that channel;
    [user] is userDefinedEnvelope and [userp] whether it is selected. *)
Section Chan.
Context (user : list Z) (userp : bool).

(** [*p] *)
Definition deref (p : eptr) : M psgchan Z :=
  match p with
  | ENull => fail F_null
  | EUser i => rd user i
  | ERom k i => e <- rd envs k ;; rd e i
  end.

(** midi_psg.c:86-91 *)
Definition init_envelope : M psgchan unit :=
  c <- get ;;
  (if userp then modify (fun c => g_set_step c (EUser 0))
   else _ <- rd envs (g_env c) ;; modify (fun c => g_set_step c (ERom (g_env c) 0))) ;;
  modify (fun c => g_set_loop c ENull).

(** midi_psg.c:96-100: arithmetic after the table lookup and the read. *)
Definition combine_attenuation (att envByte : Z) : Z :=
  let invAtt := u8 (15 - att) in
  let envAtt := u8 (Z.land envByte 0x0F) in
  let invEnvAtt := u8 (15 - envAtt) in
  let invEffectiveAtt := u8 (Z.quot (invAtt * invEnvAtt) 15) in
  u8 (15 - invEffectiveAtt).

(** midi_psg.c:93-101 *)
Definition effective_attenuation : M psgchan Z :=
  c <- get ;;
  att <- rd ATTENUATIONS (Z.quot (g_vol c * g_vel c) 127) ;;
  b <- deref (g_step c) ;;
  ret (combine_attenuation att b).

(** midi_psg.c:180-186 *)
Definition apply_attenuation (newAtt : Z) : M psgchan unit :=
  c <- get ;;
  if newAtt =? g_att c then ret tt
  else emit (EvPsgAtt (g_num c) newAtt) ;; modify (fun c => g_set_att c newAtt).

(** midi_psg.c:172-178 *)
Definition apply_tone (newFreq : Z) : M psgchan unit :=
  c <- get ;;
  if newFreq =? g_freq c then ret tt
  else emit (EvPsgTone (g_num c) newFreq) ;; modify (fun c => g_set_freq c newFreq).

(** midi_psg.c:103-108 *)
Definition psg_note_off : M psgchan unit :=
  apply_attenuation PSG_SILENCE ;;
  modify (fun c => g_set_on c false) ;;
  modify (fun c => g_set_rel c false).

(** midi_psg.c:122-168: the switch on the high nibble. *)
Definition envelope_shift (shift : Z) (pc : pitchcents) : pitchcents :=
  match shift with
  | 0x1 => pc_shift pc 5
  | 0x2 => pc_shift pc 10
  | 0x3 => pc_shift pc 20
  | 0x4 => pc_shift pc 50
  | 0x5 => mkPc (u8 (pc_pitch pc + 1)) (pc_cents pc)
  | 0x6 => mkPc (u8 (pc_pitch pc + 2)) (pc_cents pc)
  | 0x7 => mkPc (u8 (pc_pitch pc + 5)) (pc_cents pc)
  | 0x8 => pc_shift pc (-5)
  | 0x9 => pc_shift pc (-10)
  | 0xA => pc_shift pc (-20)
  | 0xB => pc_shift pc (-50)
  | 0xC => mkPc (u8 (pc_pitch pc - 1)) (pc_cents pc)
  | 0xD => mkPc (u8 (pc_pitch pc - 2)) (pc_cents pc)
  | 0xE => mkPc (u8 (pc_pitch pc - 5)) (pc_cents pc)
  | _ => pc
  end.

(** midi_psg.c:119-170 *)
Definition envelope_tone : M psgchan Z :=
  c <- get ;;
  b <- deref (g_step c) ;;
  let pc := envelope_shift (u8 (Z.shiftr b 4)) (mkPc (g_pitch c) (g_cents c)) in
  match tone_from_pitch_cents pal pc with Some t => ret t | None => fail F_oob end.

(** midi_psg.c:190-193 *)
Definition step_loop_start : M psgchan unit :=
  c <- get ;;
  b <- deref (g_step c) ;;
  when (b =? EEF_LOOP_START)
    (modify (fun c => g_set_step c (pnext (g_step c))) ;;
     modify (fun c => g_set_loop c (g_step c))).

(** midi_psg.c:194-199 *)
Definition step_loop_end : M psgchan unit :=
  c <- get ;;
  b <- deref (g_step c) ;;
  when ((b =? EEF_LOOP_END) && negb (is_null (g_loop c)))
    (modify (fun c => g_set_step c (pnext (g_step c))) ;;
     when (negb (g_rel c)) (modify (fun c => g_set_step c (g_loop c)))).

(** midi_psg.c:208-209 *)
Definition apply_both : M psgchan unit :=
  t <- envelope_tone ;;
  apply_tone t ;;
  a <- effective_attenuation ;;
  apply_attenuation a.

(** midi_psg.c:188-210 *)
Definition apply_envelope_step : M psgchan unit :=
  step_loop_start ;;
  step_loop_end ;;
  c <- get ;;
  b <- deref (g_step c) ;;
  if b =? EEF_END then
    if negb (is_null (g_loop c)) && negb (g_rel c) then
      modify (fun c => g_set_step c (g_loop c)) ;; apply_both
    else psg_note_off
  else apply_both.

(** midi_psg.c:214, 218-224 (the range test precedes the array access). *)
Definition chan_note_on (pitch cents velocity : Z) : M psgchan unit :=
  modify (fun c => g_set_rel c false) ;;
  modify (fun c => g_set_pc c pitch cents) ;;
  modify (fun c => g_set_vel c velocity) ;;
  modify (fun c => g_set_on c true) ;;
  init_envelope ;;
  apply_envelope_step.

(** midi_psg.c:230-236 *)
Definition chan_note_off : M psgchan unit :=
  c <- get ;;
  when (g_on c)
    (if negb (is_null (g_loop c)) then modify (fun c => g_set_rel c true) else psg_note_off).

(** midi_psg.c:247-250 *)
Definition chan_volume (volume : Z) : M psgchan unit :=
  modify (fun c => g_set_vol c volume) ;;
  c <- get ;;
  when (g_on c) (a <- effective_attenuation ;; apply_attenuation a).

(** midi_psg.c:265-271 *)
Definition increment_envelope_step : M psgchan unit :=
  c <- get ;;
  b <- deref (g_step c) ;;
  when (negb (b =? EEF_END)) (modify (fun c => g_set_step c (pnext (g_step c)))) ;;
  apply_envelope_step.

(** midi_psg.c:277-279 *)
Definition chan_tick : M psgchan unit :=
  c <- get ;; when (g_on c) increment_envelope_step.

(** midi_psg.c:316-318 *)
Definition chan_pitch (pitch cents : Z) : M psgchan unit :=
  modify (fun c => g_set_pc c pitch cents) ;;
  t <- envelope_tone ;;
  apply_tone t.

(** midi_psg.c:72-82 *)
Definition chan_reset (chan : Z) : M psgchan unit :=
  modify (fun c => mkPsg chan 0 0 PSG_SILENCE 0 false 127 127 0 (g_step c) (g_loop c) false) ;;
  init_envelope.
End Chan.

(** Running a channel function on [psg_channel(chan)] (midi_psg.c:308-311). *)
Definition on_chan (chan : Z) (m : list Z -> bool -> M psgchan unit) : M psg unit := fun s =>
  match zget (ps_chans s) chan with
  | None => Fault F_oob
  | Some c =>
      match m (ps_user s) (ps_userp s) c with
      | Fault f => Fault f
      | Done _ c' o => Done tt (mkPsgSt (zset (ps_chans s) chan c') (ps_user s) (ps_userp s)) o
      end
  end.

(** midi_psg.c:67-84 *)
Definition midi_psg_reset : M psg unit :=
  modify (fun s => mkPsgSt (ps_chans s) (ps_user s) false) ;;
  forM [0;1;2;3] (fun chan => on_chan chan (fun _ userp => chan_reset userp chan)).

(** midi_psg.c:212-225 *)
Definition midi_psg_note_on (chan pitch cents velocity : Z) : M psg unit :=
  if pitch <? MIN_MIDI_KEY then ret tt
  else on_chan chan (fun user userp => chan_note_on user userp pitch cents velocity).

(** midi_psg.c:227-237 (the pitch argument is ignored) *)
Definition midi_psg_note_off (chan pitch : Z) : M psg unit :=
  on_chan chan (fun _ _ => chan_note_off).

(** midi_psg.c:239-242 *)
Definition midi_psg_all_notes_off (chan : Z) : M psg unit :=
  s <- get ;;
  c <- rd (ps_chans s) chan ;;
  midi_psg_note_off chan (g_pitch c).

(** midi_psg.c:244-251 *)
Definition midi_psg_channel_volume (chan volume : Z) : M psg unit :=
  on_chan chan (fun user _ => chan_volume user volume).

(** midi_psg.c:253-257 *)
Definition midi_psg_program (chan program : Z) : M psg unit :=
  on_chan chan (fun _ _ => modify (fun c => g_set_env c program)).

(** midi_psg.c:259-263 *)
Definition midi_psg_pan (chan pan : Z) : M psg unit := ret tt.

(** midi_psg.c:273-281 (the frame count is ignored) *)
Definition midi_psg_tick : M psg unit :=
  forM [0;1;2;3] (fun chan => on_chan chan (fun user _ => chan_tick user)).

(** midi_psg.c:285-292: copy up to and including the end marker.  [eef] is the
    readable memory from the argument pointer on; running off it, or past the
    256 bytes of userDefinedEnvelope, is a fault. *)
Fixpoint load_loop (eef : list Z) (i : Z) (user : list Z) : option (list Z) :=
  match eef with
  | [] => None
  | b :: t =>
      match zget user i with
      | None => None
      | Some _ =>
          let user' := zset user i b in
          if b =? EEF_END then Some user' else load_loop t (u16 (i + 1)) user'
      end
  end.

(** midi_psg.c:283-294 *)
Definition midi_psg_load_envelope (eef : list Z) : M psg unit :=
  s <- get ;;
  match load_loop eef 0 (ps_user s) with
  | None => fail F_oob
  | Some user' => put (mkPsgSt (ps_chans s) user' true)
  end.

(** midi_psg.c:313-319 *)
Definition midi_psg_pitch (chan pitch cents : Z) : M psg unit :=
  on_chan chan (fun user _ => chan_pitch user pitch cents).

(** ** Histories *)
Inductive pop : Type :=
| PReset
| PNoteOn (c pitch cents vel : Z) | PNoteOff (c pitch : Z) | PAllOff (c : Z)
| PVolume (c v : Z) | PProgram (c p : Z) | PPan (c v : Z)
| PTick | PLoad (eef : list Z) | PPitch (c pitch cents : Z).

Definition psg_step (op : pop) : M psg unit :=
  match op with
  | PReset => midi_psg_reset
  | PNoteOn c p ce v => midi_psg_note_on c p ce v
  | PNoteOff c p => midi_psg_note_off c p
  | PAllOff c => midi_psg_all_notes_off c
  | PVolume c v => midi_psg_channel_volume c v
  | PProgram c p => midi_psg_program c p
  | PPan c v => midi_psg_pan c v
  | PTick => midi_psg_tick
  | PLoad e => midi_psg_load_envelope e
  | PPitch c p ce => midi_psg_pitch c p ce
  end.

Definition psg_run : list pop -> M psg unit := runM psg_step.
End Psg.

(** Zero-initialised statics. *)
Definition psgchan0 : psgchan := mkPsg 0 0 0 0 0 false 0 0 0 ENull ENull false.
Definition psg0 : psg := mkPsgSt [psgchan0; psgchan0; psgchan0; psgchan0] (repeat 0 256) false.

(** envelopes.c:4-10 *)
Definition ENV_SQUARE_LEAD : list Z := [0x00; EEF_LOOP_START; 0x00; EEF_LOOP_END; 0x01; 0x02; 0x03;
    0x04; 0x05; 0x06; 0x07; 0x08; 0x09; 0x0A; 0x0B; 0x0C; 0x0D; 0x0E; 0x0F; EEF_END].
Definition ENVELOPE_0 : list Z := [0x00; 0x00; 0x01; 0x01; 0x01; 0x01; 0x01; 0x01; 0x01; 0x01; 0x01;
    0x01; 0x01; 0x01; 0x01; 0x01; 0x01; 0x01; 0x01; 0x01; 0x01; 0x01; 0x01; EEF_LOOP_START; 0x01;
    0x01; 0x11; 0x11; 0x01; 0x01; 0x81; 0x81; EEF_LOOP_END; 0x01; 0x02; 0x03; 0x04; 0x05; 0x06;
    0x07; 0x08; 0x09; 0x0A; 0x0B; 0x0C; 0x0D; 0x0E; 0x0F; EEF_END].
(** envelopes.c:12-37: programs 80, 89 and 99 are the square lead. *)
Definition ENVELOPES : list (list Z) :=
  repeat ENVELOPE_0 80 ++ [ENV_SQUARE_LEAD] ++ repeat ENVELOPE_0 8 ++ [ENV_SQUARE_LEAD] ++
  repeat ENVELOPE_0 9 ++ [ENV_SQUARE_LEAD] ++ repeat ENVELOPE_0 28.
