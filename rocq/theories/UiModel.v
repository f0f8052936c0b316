(** Model of src/ui.c and src/ui_fm.c: what is on the screen.

    A screen cell shows a character (its ASCII code; an empty tile looks like a
    space) or one tile of a picture (a code from 1000).  Cells are addressed by
    column and row.  Not modelled: palettes and fonts, the build text behind
    "MDMI" on row 1 (ui.c:353, drawn once) and the debug texts of print_ticks and
    print_load_text, which settings.h:20-23 switches off. *)
From Coq Require Import String Ascii.
From Verif Require Import Base SynthModel MidiModel DevModel AppModel RxModel CommModel.

(** ** Texts *)
Definition str (s : string) : list Z := map (fun a => Z.of_nat (nat_of_ascii a)) (list_ascii_of_string s).
Definition BLANK : Z := 32.
(** sprintf "%d" of a value below 1000 *)
Definition dec (n : Z) : list Z :=
  (if 100 <=? n then [48 + n / 100] else []) ++ (if 10 <=? n then [48 + n / 10 mod 10] else []) ++ [48 + n mod 10].
(** Field widths: "%3d" and "%-2d" *)
Definition pad (w : nat) (t : list Z) : list Z := repeat BLANK (w - List.length t) ++ t.
Definition padr (w : nat) (t : list Z) : list Z := t ++ repeat BLANK (w - List.length t).
(** sprintf "%02X" of a value below 256 *)
Definition hex1 (n : Z) : Z := if n <? 10 then 48 + n else 55 + n.
Definition hex (n : Z) : list Z := [hex1 (n / 16); hex1 (n mod 16)].

(** ui.c:69-88 *)
Definition MIDI_CH_TEXT : list (list Z) := map str
  [" 1"; " 2"; " 3"; " 4"; " 5"; " 6"; " 7"; " 8"; " 9"; "10"; "11"; "12"; "13"; "14"; "15"; "16"]%string.
Definition DEV_CH_TEXT : list (list Z) := map str ["1"; "2"; "3"; "4"; "5"; "6"; "1"; "2"; "3"; "4"]%string.
Definition MIDI_CH_UNASSIGNED_TEXT : list Z := str " -".
Definition MIN_UI_MIDI_PITCH : Z := 21.
Definition MIDI_PITCH_NAMES : list (list Z) := map str
  ["A-0"; "A#0"; "B-0"; "C-1";
   "C#1"; "D-1"; "D#1"; "E-1"; "F-1"; "F#1"; "G-1"; "G#1"; "A-1"; "A#1"; "B-1"; "C-2"; "C#2";
   "D-2"; "D#2"; "E-2"; "F-2"; "F#2"; "G-2"; "G#2"; "A-2"; "A#2"; "B-2"; "C-3"; "C#3"; "D-3";
   "D#3"; "E-3"; "F-3"; "F#3"; "G-3"; "G#3"; "A-3"; "A#3"; "B-3"; "C-4"; "C#4"; "D-4"; "D#4";
   "E-4"; "F-4"; "F#4"; "G-4"; "G#4"; "A-4"; "A#4"; "B-4"; "C-5"; "C#5"; "D-5"; "D#5"; "E-5";
   "F-5"; "F#5"; "G-5"; "G#5"; "A-5"; "A#5"; "B-5"; "C-6"; "C#6"; "D-6"; "D#6"; "E-6"; "F-6";
   "F#6"; "G-6"; "G#6"; "A-6"; "A#6"; "B-6"; "C-7"; "C#7"; "D-7"; "D#7"; "E-7"; "F-7"; "F#7";
   "G-7"; "G#7"; "A-7"; "A#7"; "B-7"; "C-8"; "C#8"; "D-8"; "D#8"; "E-8"; "F-8"; "F#8"; "G-8";
   "G#8"; "A-8"; "A#8"; "B-8"; "C-9"; "C#9"; "D-9"; "D#9"; "E-9"; "F-9"; "F#9"; "G-9"]%string.

(** ** State *)
(** ui.c:105-110 *)
Record change := mkChange { g_type : Z; g_key : Z; g_value : Z; g_ttl : Z }.
(** Statics of ui_fm.c:43-50, 109-110; [q_spr]: which algorithm diagram sprites
    are visible. *)
Record panel := mkPanel {
  q_dirty : bool; q_show : bool; q_midi : Z; q_fm : Z; q_alg : Z; q_force : bool;
  q_vals : list Z; q_ops : list (list Z); q_spr : list bool }.
(** Statics of ui.c:103, 112-117, 180-181, 288, 401, 547 (lastMidiChans is never
    written); [u_icon]: the tile set loaded for the routing icon is the dynamic
    one (ui.c:540-543). *)
Record ui := mkUi {
  u_scr : Z -> Z -> Z; u_pitches : list Z; u_changes : list change; u_meter : meter;
  u_inited : bool; u_mode : Z; u_ch3 : bool; u_act : Z; u_logy : Z; u_dyn : bool; u_icon : bool;
  u_panel : panel }.

Definition set_scr u v := mkUi v (u_pitches u) (u_changes u) (u_meter u) (u_inited u) (u_mode u) (u_ch3 u) (u_act u) (u_logy u) (u_dyn u) (u_icon u) (u_panel u).
Definition set_pitches u v := mkUi (u_scr u) v (u_changes u) (u_meter u) (u_inited u) (u_mode u) (u_ch3 u) (u_act u) (u_logy u) (u_dyn u) (u_icon u) (u_panel u).
Definition set_changes u v := mkUi (u_scr u) (u_pitches u) v (u_meter u) (u_inited u) (u_mode u) (u_ch3 u) (u_act u) (u_logy u) (u_dyn u) (u_icon u) (u_panel u).
Definition set_meter u v := mkUi (u_scr u) (u_pitches u) (u_changes u) v (u_inited u) (u_mode u) (u_ch3 u) (u_act u) (u_logy u) (u_dyn u) (u_icon u) (u_panel u).
Definition set_comm u i m := mkUi (u_scr u) (u_pitches u) (u_changes u) (u_meter u) i m (u_ch3 u) (u_act u) (u_logy u) (u_dyn u) (u_icon u) (u_panel u).
Definition set_ch3 u v := mkUi (u_scr u) (u_pitches u) (u_changes u) (u_meter u) (u_inited u) (u_mode u) v (u_act u) (u_logy u) (u_dyn u) (u_icon u) (u_panel u).
Definition set_act u v := mkUi (u_scr u) (u_pitches u) (u_changes u) (u_meter u) (u_inited u) (u_mode u) (u_ch3 u) v (u_logy u) (u_dyn u) (u_icon u) (u_panel u).
Definition set_logy u v := mkUi (u_scr u) (u_pitches u) (u_changes u) (u_meter u) (u_inited u) (u_mode u) (u_ch3 u) (u_act u) v (u_dyn u) (u_icon u) (u_panel u).
Definition set_dyn u v := mkUi (u_scr u) (u_pitches u) (u_changes u) (u_meter u) (u_inited u) (u_mode u) (u_ch3 u) (u_act u) (u_logy u) v (u_icon u) (u_panel u).
Definition set_icon u v := mkUi (u_scr u) (u_pitches u) (u_changes u) (u_meter u) (u_inited u) (u_mode u) (u_ch3 u) (u_act u) (u_logy u) (u_dyn u) v (u_panel u).
Definition set_panel u v := mkUi (u_scr u) (u_pitches u) (u_changes u) (u_meter u) (u_inited u) (u_mode u) (u_ch3 u) (u_act u) (u_logy u) (u_dyn u) (u_icon u) v.

Definition q_set_dirty q v := mkPanel v (q_show q) (q_midi q) (q_fm q) (q_alg q) (q_force q) (q_vals q) (q_ops q) (q_spr q).
Definition q_set_shown q s m := mkPanel (q_dirty q) s m (q_fm q) (q_alg q) (q_force q) (q_vals q) (q_ops q) (q_spr q).
Definition q_set_fm q v := mkPanel (q_dirty q) (q_show q) (q_midi q) v (q_alg q) (q_force q) (q_vals q) (q_ops q) (q_spr q).
Definition q_set_alg q v := mkPanel (q_dirty q) (q_show q) (q_midi q) (q_fm q) v (q_force q) (q_vals q) (q_ops q) (q_spr q).
Definition q_set_force q v := mkPanel (q_dirty q) (q_show q) (q_midi q) (q_fm q) (q_alg q) v (q_vals q) (q_ops q) (q_spr q).
Definition q_set_vals q v := mkPanel (q_dirty q) (q_show q) (q_midi q) (q_fm q) (q_alg q) (q_force q) v (q_ops q) (q_spr q).
Definition q_set_ops q v := mkPanel (q_dirty q) (q_show q) (q_midi q) (q_fm q) (q_alg q) (q_force q) (q_vals q) v (q_spr q).
Definition q_set_spr q v := mkPanel (q_dirty q) (q_show q) (q_midi q) (q_fm q) (q_alg q) (q_force q) (q_vals q) (q_ops q) v.
Definition panel_mod (f : panel -> panel) : M ui unit := modify (fun u => set_panel u (f (u_panel u))).

(** Zero-initialised statics and an empty screen; ui_fm.c:49 *)
Definition panel0 : panel := mkPanel false false 0 0 0xFF false (repeat 0 8) (repeat (repeat 0 4) 11) (repeat false 8).
Definition ui0 : ui :=
  mkUi (fun _ _ => BLANK) (repeat 0 10) (repeat (mkChange 0 0 0 0) 10) meter0 false 0 false 0 0 false false panel0.

(** ** Drawing *)
Definition put_cells (scr : Z -> Z -> Z) (t : list Z) (x y : Z) : Z -> Z -> Z := fun cx cy =>
  if cy =? y then match zget t (cx - x) with Some c => c | None => scr cx cy end else scr cx cy.
Definition in_rect (x y w h cx cy : Z) : bool := (x <=? cx) && (cx <? x + w) && (y <=? cy) && (cy <? y + h).
(** VDP_drawText, VDP_clearTextArea, VDP_setTileMapXY, VDP_drawImageEx (SGDK) *)
Definition vdp_text (t : list Z) (x y : Z) : M ui unit := modify (fun u => set_scr u (put_cells (u_scr u) t x y)).
Definition vdp_clear (x y w h : Z) : M ui unit :=
  modify (fun u => set_scr u (fun cx cy => if in_rect x y w h cx cy then BLANK else u_scr u cx cy)).
Definition set_tile (tile x y : Z) : M ui unit := vdp_text [1000 + tile] x y.
(** Pictures are [w] by [h] tiles. *)
Definition vdp_image (pic x y w h : Z) : M ui unit :=
  modify (fun u => set_scr u (fun cx cy =>
    if in_rect x y w h cx cy then 2000 + 100 * pic + 10 * (cy - y) + (cx - x) else u_scr u cx cy)).
(** ui.c:340-343; MARGIN_X and MARGIN_Y are 1 (ui.h:6-7). *)
Definition draw_text (t : list Z) (x y : Z) : M ui unit := vdp_text t (1 + x) (1 + y).

(** Pictures of res/sprite.res. *)
Definition PIC_WAITING := 0. Definition PIC_ED_USB := 1. Definition PIC_ED_PRO_USB := 2. Definition PIC_SERIAL := 3.
Definition PIC_MEGAWIFI := 4. Definition PIC_DEMO := 5.
Definition PIC_DEVICE_FM := 6. Definition PIC_DEVICE_PSG := 7. Definition PIC_WAIT_EDPRO := 8. Definition PIC_WAIT_EDX7 := 9.
Definition PIC_SP := 10.
(** Tile numbers relative to TILE_USER_INDEX, ui.c:50-65. *)
Definition TILE_LED := 0. Definition TILE_ROUTING := 8. Definition TILE_BORDERS := 12.

(** ** The device columns *)
(** ui.c:15-46, ui.h:3-9 *)
Definition DEVICE_X := 1. Definition FM_DEVICE_Y := 3. Definition PSG_DEVICE_Y := 14. Definition MIDI_Y := 2.
Definition MAX_EFFECTIVE_X := 37. Definition MAX_EFFECTIVE_Y := 25.
Definition MAX_LOG_LINES := 2. Definition LOG_X := 2. Definition LOG_Y := MAX_EFFECTIVE_Y - MAX_LOG_LINES - 2.
Definition COMM_EXTRA_X := 17. Definition PITCH_X := 6. Definition CHANGE_X := PITCH_X + 4.
Definition ROUTING_X := 1. Definition ROUTING_Y := MAX_EFFECTIVE_Y - 2.
Definition UI_CHANGE_TTL := 150.
Definition FRAMES_BEFORE_UPDATE_ACTIVITY := 5.

(** ui.c:350-374 *)
Definition print_header : M ui unit :=
  draw_text (str "MDMI") 0 0 ;;
  set_tile TILE_BORDERS DEVICE_X FM_DEVICE_Y ;;
  set_tile (TILE_BORDERS + 1) DEVICE_X (FM_DEVICE_Y + 1) ;;
  set_tile (TILE_BORDERS + 1) DEVICE_X (FM_DEVICE_Y + 2) ;;
  vdp_image PIC_DEVICE_FM DEVICE_X (FM_DEVICE_Y + 3) 1 5 ;;
  set_tile (TILE_BORDERS + 1) DEVICE_X (FM_DEVICE_Y + 8) ;;
  set_tile (TILE_BORDERS + 1) DEVICE_X (FM_DEVICE_Y + 9) ;;
  set_tile (TILE_BORDERS + 2) DEVICE_X (FM_DEVICE_Y + 10) ;;
  set_tile TILE_BORDERS DEVICE_X (PSG_DEVICE_Y + 1) ;;
  set_tile (TILE_BORDERS + 1) DEVICE_X (PSG_DEVICE_Y + 2) ;;
  vdp_image PIC_DEVICE_PSG DEVICE_X (PSG_DEVICE_Y + 3) 1 3 ;;
  set_tile (TILE_BORDERS + 1) DEVICE_X (PSG_DEVICE_Y + 6) ;;
  set_tile (TILE_BORDERS + 2) DEVICE_X (PSG_DEVICE_Y + 7).

(** ui.c:376-383 *)
Definition print_channels : M ui unit :=
  forM (zseq 0 10) (fun i => t <- rd DEV_CH_TEXT i ;; draw_text t 1 (MIDI_Y + i * 2)).

(** ui.c:399-416: lastMidiChans stays all zero. *)
Definition print_mappings_if_dirty (midiChans : list Z) : M ui unit :=
  if forallb (Z.eqb 0) midiChans then ret tt
  else forM (zseq 0 10) (fun i =>
    c <- rd midiChans i ;;
    t <- (if c =? UNASSIGNED then ret MIDI_CH_UNASSIGNED_TEXT else rd MIDI_CH_TEXT c) ;;
    draw_text t 3 (MIDI_Y + i * 2)).

(** The device channels midi_channel_mappings() gives access to: the first ten. *)
Definition physical (m : midi) : list dev := firstn 10 (md_dev m).
(** ui.c:170-178 *)
Definition print_mappings (m : midi) : M ui unit := print_mappings_if_dirty (map d_midi (physical m)).

(** ui.c:418-442 *)
Definition print_chan_activity (pitches : list Z) : M ui unit :=
  forM (zseq 0 10) (fun i =>
    pitch <- rd pitches i ;;
    u <- get ;;
    last <- rd (u_pitches u) i ;;
    if pitch =? last then ret tt
    else
      (if pitch =? 0 then vdp_clear (PITCH_X + 1) (MIDI_Y + i * 2 + 1) 3 1
       else
         t <- (if MIN_UI_MIDI_PITCH <? pitch then rd MIDI_PITCH_NAMES (pitch - MIN_UI_MIDI_PITCH) else ret (str "???")) ;;
         draw_text t PITCH_X (MIDI_Y + i * 2)) ;;
      modify (fun u => set_pitches u (zset (u_pitches u) i pitch))).
(** ui.c:385-397 *)
Definition update_key_on_off (m : midi) : M ui unit :=
  print_chan_activity (map (fun d => if d_on d then d_pitch d else 0) (physical m)).

(** ui.c:144-158; type 1 Program, 2 CC *)
Definition midi_change_callback (m : midi) (kind chan key value : Z) : M ui unit :=
  modify (fun u => set_changes u
    (map (fun p : dev * change => if d_midi (fst p) =? chan then mkChange kind key value UI_CHANGE_TTL else snd p)
       (combine (physical m) (u_changes u)))).

(** ui.c:248-281 *)
Definition print_midi_changes : M ui unit :=
  forM (zseq 0 10) (fun i =>
    u <- get ;;
    c <- rd (u_changes u) i ;;
    if g_type c =? 0 then ret tt
    else if g_ttl c =? 0 then
      modify (fun u => set_changes u (zset (u_changes u) i (mkChange 0 (g_key c) (g_value c) 0))) ;;
      vdp_clear (CHANGE_X + 1) (1 + MIDI_Y + i * 2) 7 1
    else
      when (g_ttl c =? UI_CHANGE_TTL)
        (if g_type c =? 1 then draw_text (str "P=" ++ padr 3 (dec (g_value c))) CHANGE_X (MIDI_Y + i * 2)
         else if g_type c =? 2 then
           draw_text (str "CC" ++ hex (g_key c) ++ str "=" ++ hex (g_value c)) CHANGE_X (MIDI_Y + i * 2)
         else ret tt) ;;
      modify (fun u => set_changes u (zset (u_changes u) i (mkChange (g_type c) (g_key c) (g_value c) (u16 (g_ttl c - 1)))))).

(** ui.c:160-168 *)
Definition update_ch3sp (enabled : bool) : M ui unit :=
  if enabled then vdp_image PIC_SP (DEVICE_X + 2) (FM_DEVICE_Y + 2 * 2) 1 1
  else vdp_clear (DEVICE_X + 2) (FM_DEVICE_Y + 2 * 2) 1 1.

(** ui.c:183-215; [log] is what log_dequeue returns (LogModel.v), showLogs is
    never cleared. *)
Definition clear_log_area : M ui unit :=
  vdp_clear (1 + LOG_X) (LOG_Y + 1) (MAX_EFFECTIVE_X - LOG_X) (MAX_LOG_LINES + 1) ;; modify (fun u => set_logy u 0).
Definition print_log (log : option (list Z)) : M ui unit :=
  match log with
  | None => ret tt
  | Some msg =>
      u <- get ;;
      when (MAX_LOG_LINES <=? u_logy u) clear_log_area ;;
      u <- get ;;
      draw_text msg (1 + LOG_X) (LOG_Y + 1 + u_logy u) ;;
      modify (fun u => set_logy u (u8 (u_logy u + 1)))
  end.

(** ** The bottom line *)
(** comm.h:4-12 CommMode, comm.c:129-144 comm_mode, with the order of commTypes
    (comm.c:43-57); [mw]: the build for the MegaWiFi cartridge. *)
Definition DISCOVERY := 1.
Definition comm_mode (mw : bool) (c : comm) : Z :=
  match cm_active c with
  | None => DISCOVERY
  | Some i => nth i (if mw then [2; 3; 4; 5; 6] else [2; 3; 4; 6]) DISCOVERY
  end.

(** ui.c:444-495: picture, its width in tiles (res/sprite), a transport is in use *)
Definition mode_picture (mode : Z) : Z * Z * bool :=
  if mode =? 2 then (PIC_ED_USB, 7, true)
  else if mode =? 3 then (PIC_ED_PRO_USB, 7, true)
  else if mode =? 4 then (PIC_SERIAL, 5, true)
  else if mode =? 5 then (PIC_MEGAWIFI, 2, true)
  else if mode =? 6 then (PIC_DEMO, 7, true)
  else (PIC_WAITING, 7, false).
Definition print_comm_mode (mode : Z) : M ui unit :=
  u <- get ;;
  if u_inited u then ret tt
  else if u_mode u =? mode then ret tt
  else
    let '(pic, w, inited) := mode_picture mode in
    modify (fun u => set_comm u inited mode) ;;
    vdp_clear 9 (MAX_EFFECTIVE_Y + 1) 7 1 ;;
    vdp_image pic 9 (MAX_EFFECTIVE_Y + 1) w 1 ;;
    when inited (vdp_clear COMM_EXTRA_X (MAX_EFFECTIVE_Y + 1) 5 1).

(** ui.c:228-239 *)
Definition ui_print_present_devices (x7 pro : bool) : M ui unit :=
  if pro then vdp_image PIC_WAIT_EDPRO COMM_EXTRA_X (MAX_EFFECTIVE_Y + 1) 5 1
  else when x7 (vdp_image PIC_WAIT_EDX7 COMM_EXTRA_X (MAX_EFFECTIVE_Y + 1) 5 1).

(** ui.c:513-530: the four lamps (comm_reset_counts is in CommModel.load_frame) *)
Definition draw_leds (percent : Z) : M ui unit :=
  let level := if percent =? 0 then 0 else percent / 25 + 1 in
  forM (zseq 0 4) (fun i => set_tile (if i <? level then TILE_LED + i else TILE_LED + i + 4) (2 + i) (MAX_EFFECTIVE_Y + 1)).
(** ui.c:307-319, 325-333: CommModel.load_frame *)
Definition update_load (delta : Z) (c : comm) : M ui unit :=
  u <- get ;;
  let '(_, m, o) := load_frame delta (c, u_meter u) in
  modify (fun u => set_meter u m) ;;
  forM o (fun e => match e with CevShow p => draw_leds p | _ => ret tt end).

(** ui.c:532-553 *)
Definition init_routing_mode_tiles : M ui unit :=
  set_tile TILE_ROUTING ROUTING_X ROUTING_Y ;; set_tile (TILE_ROUTING + 1) (ROUTING_X + 1) ROUTING_Y ;;
  set_tile (TILE_ROUTING + 2) ROUTING_X (ROUTING_Y + 1) ;; set_tile (TILE_ROUTING + 3) (ROUTING_X + 1) (ROUTING_Y + 1).
Definition print_routing_mode (enabled : bool) : M ui unit := modify (fun u => set_icon u enabled).
Definition print_routing_mode_if_needed (enabled : bool) : M ui unit :=
  u <- get ;;
  when (negb (Bool.eqb (u_dyn u) enabled)) (print_routing_mode enabled ;; modify (fun u => set_dyn u enabled)).

(** ** The FM parameter panel, ui_fm.c *)
(** ui_fm.c:8-17 *)
Definition UNKNOWN_FM_CHANNEL := 0xFF.
Definition BASE_Y := 2. Definition OP_BASE_Y := BASE_Y + 7. Definition FM_HEADING_X := 18. Definition OP_HEADING_X := FM_HEADING_X.
Definition MAX_X := 39.

(** ui_fm.c:282-328; the buffers of chan_number and format_num hold two
    characters and the terminator. *)
Definition stereo_text (v : Z) : list Z :=
  if v =? 0 then str "Mute" else if v =? 1 then str "R   " else if v =? 2 then str "L   " else str "LR  ".
Definition LFO_TEXT : list (list Z) := map str
  ["Off  "; "4Hz  "; "5.5Hz"; "6Hz  "; "6.5Hz"; "7Hz  "; "10Hz "; "48Hz "; "72Hz "]%string.
Definition AMS_TEXT : list (list Z) := map str ["0dB "; "1dB "; "6dB "; "12dB"]%string.
Definition FMS_TEXT : list (list Z) := map str ["0%  "; "3%  "; "6%  "; "10% "; "14% "; "20% "; "40% "; "80% "]%string.
Definition fits (t : list Z) : option (list Z) := if (List.length t <=? 2)%nat then Some t else None.
Definition chan_number (v : Z) : option (list Z) := fits (padr 2 (dec (v + 1))).
Definition format_num (v : Z) : option (list Z) := fits (dec v).

(** UIField, ui_fm.c:28-35 and 84-93: place of the heading, offset of the value,
    heading, format.  The value getters are [field_values]. *)
Record field := mkField { k_x : Z; k_y : Z; k_off : Z; k_name : string; k_format : Z -> option (list Z) }.
Definition fmFields : list field := [
  mkField 0 0 3 "Ch" chan_number;
  mkField 7 0 3 "FM" chan_number;
  mkField 0 2 4 "Alg" format_num;
  mkField 7 2 3 "Fb" format_num;
  mkField 0 3 4 "Pan" (fun v => Some (stereo_text v));
  mkField 0 4 4 "LFO" (zget LFO_TEXT);
  mkField 0 5 4 "FMS" (zget FMS_TEXT);
  mkField 8 5 4 "AMS" (zget AMS_TEXT)].
(** ui_fm.c:144-185 *)
Definition field_values (s : synth) (c : fmchan) (midiChan fmChan : Z) : list Z :=
  [midiChan; fmChan; c_alg c; c_fb c; c_st c; (if s_lfoen s =? 0 then 0 else u8 (s_lfofreq s + 1)); c_fms c; c_ams c].
(** ui_fm.c:95-107 and 187-240 *)
Definition opFields : list (string * (operator -> Z)) := [
  (" TL"%string, o_tl); (" AR"%string, o_ar); ("MUL"%string, o_mul); (" DT"%string, o_dt); (" RS"%string, o_rs);
  (" AM"%string, o_am); (" DR"%string, o_dr); (" SR"%string, o_sr); (" SL"%string, o_sl); (" RR"%string, o_rr);
  ("SSG"%string, o_ssg)].

(** ui_fm.c:242-254 *)
Definition print_channel_parameter_headings : M ui unit :=
  draw_text (str "    Op1   2   3   4") OP_HEADING_X OP_BASE_Y ;;
  forM (zseq 0 11) (fun i => f <- rd opFields i ;; draw_text (str (fst f)) OP_HEADING_X (OP_BASE_Y + i + 1)) ;;
  forM fmFields (fun f => draw_text (str (k_name f)) (FM_HEADING_X + k_x f) (BASE_Y + k_y f)).

(** ui_fm.c:256-268 *)
Definition hide_all_algorithms : M ui unit := panel_mod (fun q => q_set_spr q (map (fun _ => false) (q_spr q))).
Definition update_algorithm_diagram (a : Z) : M ui unit :=
  hide_all_algorithms ;;
  u <- get ;; _ <- rd (q_spr (u_panel u)) a ;;
  panel_mod (fun q => q_set_spr q (zset (q_spr q) a true)).

(** ui_fm.c:270-280 *)
Fixpoint get_fm_chan_for_midi_chan (l : list dev) (midiChan : Z) : Z :=
  match l with
  | [] => UNKNOWN_FM_CHANNEL
  | d :: t => if d_midi d =? midiChan then d_num d else get_fm_chan_for_midi_chan t midiChan
  end.

(** ui_fm.c:357-368 *)
Definition update_field_if_changed (i : Z) (values : list Z) (force : bool) : M ui unit :=
  f <- rd fmFields i ;;
  v <- rd values i ;;
  u <- get ;;
  last <- rd (q_vals (u_panel u)) i ;;
  when (negb (last =? v) || force)
    (match k_format f v with
     | None => fail F_oob
     | Some t => draw_text t (FM_HEADING_X + k_x f + k_off f) (BASE_Y + k_y f)
     end ;;
     panel_mod (fun q => q_set_vals q (zset (q_vals q) i v))).

(** ui_fm.c:330-346 *)
Definition update_op_field_if_changed (i : Z) (c : fmchan) (op : Z) (force : bool) : M ui unit :=
  f <- rd opFields i ;;
  o <- rd (c_ops c) op ;;
  u <- get ;;
  row <- rd (q_ops (u_panel u)) i ;;
  last <- rd row op ;;
  let v := snd f o in
  when (negb (last =? v) || force)
    (draw_text (pad 3 (dec v)) (OP_HEADING_X + 4 + op * 4) (OP_BASE_Y + i + 1) ;;
     panel_mod (fun q => q_set_ops q (zset (q_ops q) i (zset row op v)))).
(** ui_fm.c:348-355 *)
Definition update_op_values (c : fmchan) (force : bool) : M ui unit :=
  forM (zseq 0 11) (fun i => forM (zseq 0 4) (fun op => update_op_field_if_changed i c op force)).

(** ui_fm.c:370-391 *)
Definition update_fm_values (s : synth) : M ui unit :=
  u <- get ;;
  let q := u_panel u in
  c <- rd (s_chans s) (q_fm q) ;;
  forM (zseq 0 8) (fun i => update_field_if_changed i (field_values s c (q_midi q) (q_fm q)) (q_force q)) ;;
  when (negb (q_alg q =? c_alg c) || q_force q)
    (update_algorithm_diagram (c_alg c) ;; panel_mod (fun q => q_set_alg q (c_alg c))) ;;
  update_op_values c (q_force q) ;;
  panel_mod (fun q => q_set_force q false).

(** ui_fm.c:393-412; DEV_CHAN_MAX_FM is 5 *)
Definition ui_fm_update (m : midi) (s : synth) : M ui unit :=
  u <- get ;;
  if negb (q_show (u_panel u)) then ret tt
  else
    let chan := get_fm_chan_for_midi_chan (firstn 6 (md_dev m)) (q_midi (u_panel u)) in
    if chan =? UNKNOWN_FM_CHANNEL then ret tt
    else
      when (negb (q_fm (u_panel u) =? chan)) (panel_mod (fun q => q_set_dirty (q_set_fm q chan) true)) ;;
      u <- get ;;
      when (q_dirty (u_panel u)) (update_fm_values s ;; panel_mod (fun q => q_set_dirty q false)).

(** ui_fm.c:414-427 *)
Definition ui_fm_set_parameters_visibility (chan : Z) (show : bool) : M ui unit :=
  panel_mod (fun q => q_set_shown q show chan) ;;
  (if show then panel_mod (fun q => q_set_force q true) ;; print_channel_parameter_headings
   else vdp_clear FM_HEADING_X (1 + BASE_Y) MAX_X 20 ;; hide_all_algorithms) ;;
  panel_mod (fun q => q_set_dirty q true).

(** ui_fm.c:137-142; kind 1 is Lfo *)
Definition synth_parameter_updated (fmChan kind : Z) : M ui unit :=
  u <- get ;;
  when ((fmChan =? q_fm (u_panel u)) || (kind =? 1)) (panel_mod (fun q => q_set_dirty q true)).

(** ** The frame handler, ui.c:283-323 *)
Definition update (m : midi) (s : synth) (delta mode : Z) (c : comm) (log : option (list Z)) : M ui unit :=
  update_key_on_off m ;;
  print_midi_changes ;;
  modify (fun u => set_act u (u16 (u_act u + delta))) ;;
  u <- get ;;
  when (FRAMES_BEFORE_UPDATE_ACTIVITY <=? u_act u)
    (modify (fun u => set_act u 0) ;;
     print_mappings m ;;
     print_comm_mode mode ;;
     print_log log ;;
     print_routing_mode_if_needed (md_dyn m) ;;
     u <- get ;;
     when (negb (Bool.eqb (s_special s) (u_ch3 u)))
       (update_ch3sp (s_special s) ;; modify (fun u => set_ch3 u (s_special s)))) ;;
  update_load delta c ;;
  ui_fm_update m s.

(** ui.c:119-142; before comm_init no transport is in use.  (ui.c:513-516 of the
    first update_load: the load is 0.) *)
Definition ui_start (m : midi) : M ui unit :=
  print_header ;;
  print_channels ;;
  draw_leds 0 ;;
  draw_text (str "%") 0 MAX_EFFECTIVE_Y ;;
  print_comm_mode DISCOVERY ;;
  print_mappings m ;;
  init_routing_mode_tiles ;;
  print_routing_mode (md_dyn m).

(** ** The interface with its screen *)
Record sys := mkSys { y_app : app; y_ui : ui }.

(** The screen's callbacks, in the order they are called.  [m]: the MIDI layer
    when they are called; changes are reported last by the functions of midi.c
    (midi.c:589-596, 1283-1291). *)
Definition ui_event (m : midi) (e : event) : M ui unit :=
  match e with
  | EvParam c k => synth_parameter_updated c k
  | EvMidiChange k c key v => midi_change_callback m k c key v
  | EvUi c b => ui_fm_set_parameters_visibility c (negb (b =? 0))
  | _ => ret tt
  end.

Definition on_ui (f : app -> M ui unit) : M sys unit := fun s =>
  match f (y_app s) (y_ui s) with
  | Fault e => Fault e
  | Done _ u _ => Done tt (mkSys (y_app s) u) []
  end.
(** Part of the interface runs, calling back. *)
Definition on_app (f : M app unit) : M sys unit := fun s =>
  match f (y_app s) with
  | Fault e => Fault e
  | Done _ a o =>
      match forM o (ui_event (a_midi a)) (y_ui s) with
      | Fault e => Fault e
      | Done _ u _ => Done tt (mkSys a u) o
      end
  end.

(** A message; or the frame handlers of a frame, [delta] frames after the last
    time, with the transports in state [c] and [log] in the log queue.  The UI's
    handler comes third (main.c:23, ui.c:121). *)
Inductive uop : Type := UMsg (op : mop) | UFrame (delta : Z) (c : comm) (log : option (list Z)).

Section Sys.
Context (r : rom) (mw : bool).

Definition u_step (op : uop) : M sys unit :=
  match op with
  | UMsg m => on_app (app_step r (AMsg m))
  | UFrame delta c log =>
      on_app (app_step r AFrame) ;;
      on_ui (fun a => update (a_midi a) (v_synth (a_dev a)) delta (comm_mode mw c) c log)
  end.
Definition u_run : list uop -> M sys unit := runM u_step.

(** main.c:18-31 *)
Definition u_main (hw : hardware) : M sys unit :=
  on_app (app_midi r midi_init) ;;
  on_ui (fun a => ui_start (a_midi a)) ;;
  on_app (ui_init r) ;;
  on_app (comm_init hw) ;;
  on_ui (fun a => ui_print_present_devices (a_x7 a) (a_pro a)) ;;
  match run_startup_sequence STARTUP_MIDI_SEQUENCE with
  | Failed f => fail f
  | Ran ops _ => u_run (map UMsg ops)
  end.
Definition u_boot (hw : hardware) (mem : list Z) (ops : list uop) : res sys unit :=
  (u_main hw ;; u_run ops) (mkSys (app0 mem) ui0).
End Sys.
