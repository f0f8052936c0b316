(** What a user reads on the screen. *)
From Coq Require Import String Ascii.
From Verif Require Import Base SynthModel MidiModel MidiSpec DevModel DevSpec AppModel AppSpec CommModel UiModel.

Definition screen := Z -> Z -> Z.
(** The string [t] stands at column [x] of row [y]. *)
Definition shows (scr : screen) (x y : Z) (t : string) : Prop :=
  forall k c, String.get k t = Some c -> scr (x + Z.of_nat k) y = Z.of_nat (nat_of_ascii c).
(** [w] cells are blank. *)
Definition empty (scr : screen) (x y w : Z) : Prop := forall k, 0 <= k < w -> scr (x + k) y = 32.
Definition cells (scr : screen) (x y : Z) (w : nat) : list Z := map (fun k => scr (x + k) y) (zseq 0 w).

(** Reading a decimal number, ignoring blanks. *)
Fixpoint decimal (acc : Z) (l : list Z) : option Z :=
  match l with
  | [] => Some acc
  | c :: t => if (48 <=? c) && (c <=? 57) then decimal (10 * acc + (c - 48)) t else None
  end.
Definition number (l : list Z) : option Z :=
  match filter (fun c => negb (c =? 32)) l with [] => None | l => decimal 0 l end.
(** Reading two hexadecimal digits. *)
Definition hex_digit (c : Z) : option Z :=
  if (48 <=? c) && (c <=? 57) then Some (c - 48) else if (65 <=? c) && (c <=? 70) then Some (c - 55) else None.
Definition hex_number (l : list Z) : option Z :=
  match l with
  | [a; b] => match hex_digit a, hex_digit b with Some x, Some y => Some (16 * x + y) | _, _ => None end
  | _ => None
  end.
Definition shows_number (scr : screen) (x y : Z) (w : nat) (v : Z) : Prop := number (cells scr x y w) = Some v.

(** ** Histories *)
Definition uop_ok (op : uop) : Prop :=
  match op with
  | UMsg m => mop_ok m /\ ~ registers m
  | UFrame delta _ _ => 1 <= delta < 65000
  end.
Definition heard (op : uop) : aop := match op with UMsg m => AMsg m | UFrame _ _ _ => AFrame end.
(** [s] is the state and [tr] all events after power-on and the history [ops]. *)
Definition watched (r : rom) (mw : bool) (hw : hardware) (mem : list Z) (ops : list uop) (s : sys) (tr : list event) : Prop :=
  rom_ok r /\ mem_ok mem /\ Forall uop_ok ops /\ u_boot r mw hw mem ops = Done tt s tr.
Definition midi_of (s : sys) : midi := a_midi (y_app s).
Definition synth_of (s : sys) : synth := v_synth (a_dev (y_app s)).
Definition scr_of (s : sys) : screen := u_scr (y_ui s).

Definition is_frame (op : uop) : Prop := match op with UFrame _ _ _ => True | UMsg _ => False end.
(** Frames that passed. *)
Fixpoint elapsed (ops : list uop) : Z :=
  match ops with [] => 0 | UFrame d _ _ :: t => d + elapsed t | UMsg _ :: t => elapsed t end.
(** How often the screen was drawn. *)
Fixpoint frames (ops : list uop) : Z :=
  match ops with [] => 0 | UFrame _ _ _ :: t => 1 + frames t | UMsg _ :: t => frames t end.
(** A controller or program message for device channel [i] of [s]. *)
Definition addresses (op : uop) (s : sys) (i : Z) : Prop :=
  exists c d, ((exists k v, op = UMsg (MCc c k v)) \/ exists v, op = UMsg (MProgram c v)) /\ dev_at (midi_of s) i d /\ d_midi d = c.
(** From [s] over [ops] to [s'], with no such message for device channel [i]. *)
Inductive undisturbed (r : rom) (mw : bool) (i : Z) : sys -> list uop -> sys -> Prop :=
| ud_nil s : undisturbed r mw i s [] s
| ud_cons op s s1 o later s' : uop_ok op -> u_step r mw op s = Done tt s1 o -> ~ addresses op s1 i ->
    undisturbed r mw i s1 later s' -> undisturbed r mw i s (op :: later) s'.

(** ** The device rows *)
(** Row of device channel [i]: FM 1-6 are 0-5, PSG 1-4 are 6-9. *)
Definition row (i : Z) : Z := 3 + 2 * i.
(** Note names, as on a keyboard where key 60 is C-4. *)
Definition note_letter (p : Z) : string :=
  nth (Z.to_nat (p mod 12)) ["C-"; "C#"; "D-"; "D#"; "E-"; "F-"; "F#"; "G-"; "G#"; "A-"; "A#"; "B-"]%string EmptyString.
Definition shows_note (scr : screen) (i p : Z) : Prop :=
  shows scr 7 (row i) (note_letter p) /\ shows_number scr 9 (row i) 1 (p / 12 - 1).
Definition no_note (scr : screen) (i : Z) : Prop := empty scr 7 (row i) 3.

Definition shows_mapping (scr : screen) (i : Z) (chan : Z) : Prop :=
  if chan =? 0x7F then shows scr 4 (row i) " -" else shows_number scr 4 (row i) 2 (chan + 1).
Definition shows_mappings (scr : screen) (m : midi) : Prop :=
  forall i d, 0 <= i < 10 -> dev_at m i d -> shows_mapping scr i (d_midi d).

(** A controller or program message, as it is shown next to the device. *)
Definition shows_cc (scr : screen) (i k v : Z) : Prop :=
  shows scr 11 (row i) "CC" /\ hex_number (cells scr 13 (row i) 2) = Some k /\
  shows scr 15 (row i) "=" /\ hex_number (cells scr 16 (row i) 2) = Some v.
Definition shows_program (scr : screen) (i v : Z) : Prop :=
  shows scr 11 (row i) "P=" /\ shows_number scr 13 (row i) 3 v.

(** ** The FM parameter panel *)
(** The MIDI channel the panel was last switched on for, if it is on. *)
Definition selected (tr : list event) : option Z :=
  fold_left (fun a e => match e with EvUi c b => if b =? 0 then None else Some c | _ => a end) tr None.
(** The first FM channel playing MIDI channel [c]. *)
Definition first_fm (m : midi) (c n : Z) : Prop :=
  0 <= n < 6 /\ (exists d, dev_at m n d /\ d_midi d = c) /\ forall i d, 0 <= i < n -> dev_at m i d -> d_midi d <> c.
Definition stereo_name (v : Z) : string := nth (Z.to_nat v) ["Mute"; "R   "; "L   "; "LR  "]%string EmptyString.
Definition lfo_name (s : synth) : string :=
  if s_lfoen s =? 0 then "Off  "%string
  else nth (Z.to_nat (s_lfofreq s)) ["4Hz  "; "5.5Hz"; "6Hz  "; "6.5Hz"; "7Hz  "; "10Hz "; "48Hz "; "72Hz "]%string EmptyString.
Definition fms_name (v : Z) : string :=
  nth (Z.to_nat v) ["0%  "; "3%  "; "6%  "; "10% "; "14% "; "20% "; "40% "; "80% "]%string EmptyString.
Definition ams_name (v : Z) : string := nth (Z.to_nat v) ["0dB "; "1dB "; "6dB "; "12dB"]%string EmptyString.
(** Operator [k] (0 to 3): one column of numbers, one line per parameter. *)
Definition shows_operator (scr : screen) (k : Z) (o : operator) : Prop :=
  let at_line i v := shows_number scr (23 + 4 * k) (11 + i) 3 v in
  at_line 0 (o_tl o) /\ at_line 1 (o_ar o) /\ at_line 2 (o_mul o) /\ at_line 3 (o_dt o) /\ at_line 4 (o_rs o) /\
  at_line 5 (o_am o) /\ at_line 6 (o_dr o) /\ at_line 7 (o_sr o) /\ at_line 8 (o_sl o) /\ at_line 9 (o_rr o) /\
  at_line 10 (o_ssg o).
Definition shows_channel (scr : screen) (s : synth) (midiChan n : Z) (ch : fmchan) : Prop :=
  shows_number scr 22 3 2 (midiChan + 1) /\ shows_number scr 29 3 2 (n + 1) /\
  shows_number scr 23 5 1 (c_alg ch) /\ shows_number scr 29 5 1 (c_fb ch) /\
  shows scr 23 6 (stereo_name (c_st ch)) /\ shows scr 23 7 (lfo_name s) /\
  shows scr 23 8 (fms_name (c_fms ch)) /\ shows scr 31 8 (ams_name (c_ams ch)) /\
  forall k o, zget (c_ops ch) k = Some o -> shows_operator scr k o.
(** Headings of the panel. *)
Definition panel_headings : list (Z * Z * string) :=
  [(19, 3, "Ch"); (26, 3, "FM"); (19, 5, "Alg"); (26, 5, "Fb"); (19, 6, "Pan"); (19, 7, "LFO"); (19, 8, "FMS"); (27, 8, "AMS");
   (19, 10, "    Op1   2   3   4");
   (19, 11, " TL"); (19, 12, " AR"); (19, 13, "MUL"); (19, 14, " DT"); (19, 15, " RS"); (19, 16, " AM"); (19, 17, " DR");
   (19, 18, " SR"); (19, 19, " SL"); (19, 20, " RR"); (19, 21, "SSG")]%string.
(** The algorithm diagrams on the screen. *)
Definition diagrams (s : sys) : list bool := q_spr (u_panel (y_ui s)).
Definition only_diagram (s : sys) (a : Z) : Prop := forall k, 0 <= k < 8 -> zget (diagrams s) k = Some (k =? a).
Definition no_diagram (s : sys) : Prop := forall k, 0 <= k < 8 -> zget (diagrams s) k = Some false.

(** ** The rest of the screen *)
(** The routing icon shows the dynamic symbol. *)
Definition routing_icon (s : sys) : bool := u_icon (y_ui s).
(** The mark of special mode next to FM 3. *)
Definition special_mark (scr : screen) (b : bool) : Prop := scr 3 7 = if b then 2000 + 100 * PIC_SP else 32.
(** A picture [w] tiles wide at column 9 of the bottom row, nothing after it. *)
Definition shows_transport (scr : screen) (pic w : Z) : Prop :=
  forall k, 0 <= k < 7 -> scr (9 + k) 26 = if k <? w then 2000 + 100 * pic + k else 32.
(** Transports in the order of comm.h: USB, PRO USB, serial, MegaWiFi, demo. *)
Definition transport_picture (mode : Z) : Z * Z := nth (Z.to_nat mode) [(0, 7); (0, 7); (1, 7); (2, 7); (3, 5); (4, 2); (5, 7)] (0, 7).
Definition shows_mode (scr : screen) (mode : Z) : Prop := shows_transport scr (fst (transport_picture mode)) (snd (transport_picture mode)).
(** The transport in use: 1 while waiting for one to answer; the transports are asked in the
    order of comm.h, and only a MegaWiFi build has the fourth. *)
Definition carried_by (mw : bool) (c : comm) (M : Z) : Prop :=
  match cm_active c with
  | None => M = 1
  | Some i => In (i, M) ([(0%nat, 2); (1%nat, 3); (2%nat, 4)] ++ if mw then [(3%nat, 5); (4%nat, 6)] else [(3%nat, 6)])
  end.
Definition uses (mw : bool) (M : Z) (op : uop) : Prop := match op with UFrame _ c _ => carried_by mw c M | UMsg _ => True end.
(** The load lamps, redrawn every 15 frames: the polling counts they were last drawn from;
    the percentage of the polls that found a byte; lamp [k] (0 to 3) is on. *)
Fixpoint measured (age : Z) (ops : list uop) : list comm :=
  match ops with
  | [] => []
  | UMsg _ :: t => measured age t
  | UFrame d c _ :: t => if 15 <=? age + d then c :: measured 0 t else measured (age + d) t
  end.
Definition busy_percent (c : comm) : Z := if cm_idle c + cm_reads c =? 0 then 0 else 100 * cm_reads c / (cm_idle c + cm_reads c).
Definition lamp (scr : screen) (k : Z) (on : bool) : Prop := scr (2 + k) 26 = if on then 1000 + k else 1004 + k.
(** A picture of what is attached, five tiles from column 17 of the bottom row. *)
Definition shows_attached (scr : screen) (pic : Z) : Prop := forall k, 0 <= k < 5 -> scr (17 + k) 26 = 2000 + 100 * pic + k.
(** Messages of the log taken to the screen: every five frames at most one. *)
Fixpoint logged (act : Z) (ops : list uop) : list (list Z) :=
  match ops with
  | [] => []
  | UMsg _ :: t => logged act t
  | UFrame d _ log :: t =>
      if 5 <=? act + d then match log with Some msg => msg :: logged 0 t | None => logged 0 t end else logged (act + d) t
  end.
Definition line (scr : screen) (y : Z) (t : list Z) : Prop := forall k c, zget t k = Some c -> scr (4 + k) y = c.
(** Texts that are always on the screen. *)
Definition fixed_texts : list (Z * Z * string) :=
  [(1, 1, "MDMI"); (1, 26, "%"); (2, 3, "1"); (2, 5, "2"); (2, 7, "3"); (2, 9, "4"); (2, 11, "5"); (2, 13, "6");
   (2, 15, "1"); (2, 17, "2"); (2, 19, "3"); (2, 21, "4")]%string.
(** The panel is not on the screen: its area is blank. *)
Definition panel_blank (scr : screen) : Prop := forall x y, 19 <= x < 39 -> 3 <= y < 22 -> scr x y = 32.
Definition is_reset (op : uop) : Prop := op = UMsg MReset.
(** What the cartridge registers say is attached: STAT of the Mega EverDrive PRO
    carries the signature 55Ah, the status byte of the X7 is 00h or 40h. *)
Definition hw_ok (hw : hardware) : Prop := 0 <= hw_ste hw < 65536 /\ 0 <= hw_stat hw < 65536.
Definition sees_pro (hw : hardware) : Prop := hw_stat hw / 16 = 0x55A.
Definition sees_x7 (hw : hardware) : Prop := hw_ste hw / 256 = 0 \/ hw_ste hw / 256 = 0x40.
