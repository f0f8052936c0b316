(** What the user reads on the screen.  [watched r mw hw mem ops s tr] (UiSpec): after
    power-on with ROM [r] and stored presets [mem] on hardware [hw], the messages and
    frames [ops] lead to state [s] and caused the events [tr]; [mw] tells a build with
    MegaWiFi.  [scr_of s] maps column and row to the character drawn there. *)
From Coq Require Import String.
From Verif Require Import Base SynthModel MidiModel MidiSpec DevModel DevSpec AppModel AppSpec AppExampleProofs RomData CommModel.
From Verif Require Import UiModel UiSpec UiClaimsProofs UiExampleProofs.

(** ** C74 *)
(** After a frame the note of every device is on the screen, under its usual name.
    Missing: keys 0 to 21, see the refutation. *)
Theorem C74_notes_partial : forall r mw hw mem ops delta c log s tr i d,
  watched r mw hw mem (ops ++ [UFrame delta c log]) s tr -> 0 <= i < 10 -> dev_at (midi_of s) i d ->
  (d_on d = false -> no_note (scr_of s) i) /\
  (d_on d = true -> 22 <= d_pitch d <= 127 -> shows_note (scr_of s) i (d_pitch d)) /\
  (d_on d = true -> 1 <= d_pitch d <= 21 -> shows (scr_of s) 7 (row i) "???").
Proof. exact notes_shown. Qed.
Print Assumptions C74_notes_partial.
Example C74_nonvacuous : exists s tr d e, seen (played_song ++ [fr]) s tr /\ dev_at (midi_of s) 0 d /\ d_on d = true /\ d_pitch d = 60 /\
  shows (scr_of s) 7 3 "C-4" /\ dev_at (midi_of s) 1 e /\ d_on e = false /\ cells (scr_of s) 7 5 3 = [32; 32; 32] /\ shows (scr_of s) 7 15 "A-2".
Proof. exact c74_example. Qed.
(** Key 21 has a name, A-0, yet "???" is shown; key 0 sounds while nothing is shown. *)
Theorem C74_refuted : ~ (forall r mw hw mem ops delta c log s tr i d, watched r mw hw mem (ops ++ [UFrame delta c log]) s tr -> 0 <= i < 10 ->
  dev_at (midi_of s) i d -> d_on d = true -> shows_note (scr_of s) i (d_pitch d)).
Proof. exact c74_refuted. Qed.
Print Assumptions C74_refuted.
Example C74_low : exists s tr d e, seen ([UMsg (MNoteOn 0 21 100); UMsg (MNoteOn 1 0 100)] ++ [fr]) s tr /\
  dev_at (midi_of s) 0 d /\ d_on d = true /\ d_pitch d = 21 /\ ~ shows_note (scr_of s) 0 21 /\
  dev_at (midi_of s) 1 e /\ d_on e = true /\ d_pitch e = 0 /\ no_note (scr_of s) 1.
Proof. exact c74_low. Qed.

(** ** C75 *)
(** Five frames after the last message the mapping on the screen is the one in use.
    Missing: all ten devices mapped to MIDI channel 1. *)
Theorem C75_mappings_partial : forall r mw hw mem ops later s tr j dj,
  watched r mw hw mem (ops ++ later) s tr -> Forall is_frame later -> 5 <= elapsed later ->
  0 <= j < 10 -> dev_at (midi_of s) j dj -> d_midi dj <> 0 -> shows_mappings (scr_of s) (midi_of s).
Proof. exact mappings_shown. Qed.
Print Assumptions C75_mappings_partial.
Example C75_nonvacuous : exists s tr d, seen (remap_song ++ [fr5]) s tr /\ dev_at (midi_of s) 3 d /\ d_midi d = 4 /\
  shows_mapping (scr_of s) 3 4 /\ shows_mapping (scr_of s) 0 0.
Proof. exact c75_example. Qed.
Theorem C75_refuted : ~ (forall r mw hw mem ops later s tr, watched r mw hw mem (ops ++ later) s tr -> Forall is_frame later -> 5 <= elapsed later ->
  shows_mappings (scr_of s) (midi_of s)).
Proof. exact c75_refuted. Qed.
Print Assumptions C75_refuted.

(** ** C76 *)
(** A controller message stands beside every device playing its channel for 150 frames
    and is gone after that, as long as no further one for that device comes. *)
Theorem C76_controller : forall r mw hw mem ops s0 tr c k v s1 o i d later s2,
  watched r mw hw mem ops s0 tr -> mop_ok (MCc c k v) -> u_step r mw (UMsg (MCc c k v)) s0 = Done tt s1 o ->
  0 <= i < 10 -> dev_at (midi_of s1) i d -> d_midi d = c -> undisturbed r mw i s1 later s2 ->
  (1 <= frames later <= 150 -> shows_cc (scr_of s2) i k v) /\ (151 <= frames later -> empty (scr_of s2) 11 (row i) 7).
Proof. exact controller_shown. Qed.
Print Assumptions C76_controller.
Theorem C76_program : forall r mw hw mem ops s0 tr c v s1 o i d later s2,
  watched r mw hw mem ops s0 tr -> mop_ok (MProgram c v) -> u_step r mw (UMsg (MProgram c v)) s0 = Done tt s1 o ->
  0 <= i < 10 -> dev_at (midi_of s1) i d -> d_midi d = c -> undisturbed r mw i s1 later s2 ->
  (1 <= frames later <= 150 -> shows_program (scr_of s2) i v) /\ (151 <= frames later -> empty (scr_of s2) 11 (row i) 7).
Proof. exact program_shown. Qed.
Print Assumptions C76_program.
Example C76_nonvacuous : exists s0 tr s1 o d s2, seen [] s0 tr /\ u_step (shipped false) false (UMsg (MCc 0 7 100)) s0 = Done tt s1 o /\
  dev_at (midi_of s1) 0 d /\ d_midi d = 0 /\ undisturbed (shipped false) false 0 s1 [fr] s2 /\ cells (scr_of s2) 11 3 7 = str "CC07=64".
Proof. exact c76_example. Qed.
(** Reading the whole field after "P=": the value of an earlier controller is still there. *)
Theorem C76_refuted : ~ (forall r mw hw mem ops s0 tr c v s1 o i d later s2, watched r mw hw mem ops s0 tr -> mop_ok (MProgram c v) ->
  u_step r mw (UMsg (MProgram c v)) s0 = Done tt s1 o -> 0 <= i < 10 -> dev_at (midi_of s1) i d -> d_midi d = c ->
  undisturbed r mw i s1 later s2 -> 1 <= frames later <= 150 -> shows_number (scr_of s2) 13 (row i) 5 v).
Proof. exact c76_refuted. Qed.
Print Assumptions C76_refuted.

(** ** C77 *)
(** Only controller 83 switches the FM parameter panel. *)
Theorem C77_switch : forall r mw hw mem ops op s tr s' tr', watched r mw hw mem ops s tr -> watched r mw hw mem (ops ++ [op]) s' tr' ->
  selected tr' = match op with UMsg (MCc c 83 v) => if md_nogm (midi_of s) then selected tr else if 64 <=? v then Some c else None | _ => selected tr end.
Proof. exact panel_switched. Qed.
Print Assumptions C77_switch.
Theorem C77_hidden : forall r mw hw mem ops s tr, watched r mw hw mem ops s tr -> selected tr = None -> panel_blank (scr_of s) /\ no_diagram s.
Proof. exact panel_hidden. Qed.
Print Assumptions C77_hidden.
(** Switched on for a MIDI channel, the panel shows after every frame all parameters of the
    first FM channel playing it.  Missing: channels without FM, a reset after switching it on. *)
Theorem C77_panel_partial : forall r mw hw mem a b delta cm log s1 tr1 s tr2 c n ch,
  watched r mw hw mem a s1 tr1 -> watched r mw hw mem (a ++ b ++ [UFrame delta cm log]) s (tr1 ++ tr2) -> Forall (fun op => ~ is_reset op) b ->
  selected tr2 = Some c -> first_fm (midi_of s) c n -> zget (s_chans (synth_of s)) n = Some ch ->
  shows_channel (scr_of s) (synth_of s) c n ch /\ only_diagram s (c_alg ch) /\
  Forall (fun h : Z * Z * string => shows (scr_of s) (fst (fst h)) (snd (fst h)) (snd h)) panel_headings.
Proof. exact panel_shown. Qed.
Print Assumptions C77_panel_partial.
Example C77_nonvacuous : exists s tr s0 tr0 ch, seen [] s0 tr0 /\ seen ([] ++ panel_song ++ [fr]) s (tr0 ++ tr) /\ Forall (fun op => ~ is_reset op) panel_song /\
  selected tr = Some 0 /\ first_fm (midi_of s) 0 0 /\ zget (s_chans (synth_of s)) 0 = Some ch /\ c_alg ch = 7 /\ shows_number (scr_of s) 23 5 1 7.
Proof. exact c77_example. Qed.
Theorem C77_refuted : ~ (forall r mw hw mem ops delta cm log s tr c, watched r mw hw mem (ops ++ [UFrame delta cm log]) s tr -> selected tr = Some c ->
  shows_number (scr_of s) 22 3 2 (c + 1)).
Proof. exact c77_refuted. Qed.
Print Assumptions C77_refuted.
Theorem C77_reset_refuted : ~ (forall r mw hw mem ops delta cm log s tr c n ch, watched r mw hw mem (ops ++ [UFrame delta cm log]) s tr -> selected tr = Some c ->
  first_fm (midi_of s) c n -> zget (s_chans (synth_of s)) n = Some ch -> shows_channel (scr_of s) (synth_of s) c n ch).
Proof. exact c77_reset_refuted. Qed.
Print Assumptions C77_reset_refuted.

(** ** C78 *)
(** Drawing never fails and changes nothing but the screen: whatever the interface does
    without a screen it does with one.  Missing: the portamento switch. *)
Theorem C78_harmless_partial : forall r mw hw mem ops a tr, rom_ok r -> mem_ok mem -> Forall uop_ok ops ->
  Forall (fun op => forall m, op = UMsg m -> ~ is_cc 65 m) ops -> app_boot r hw mem (map heard ops) = Done tt a tr ->
  exists u, watched r mw hw mem ops (mkSys a u) tr.
Proof. exact screen_harmless. Qed.
Print Assumptions C78_harmless_partial.
Theorem C78_passive : forall r mw hw mem ops s tr, watched r mw hw mem ops s tr -> history r hw mem (map heard ops) (y_app s) tr.
Proof. exact screen_passive. Qed.
Print Assumptions C78_passive.
Theorem C78_total_partial : forall r mw hw mem ops, rom_ok r -> mem_ok mem -> Forall uop_ok ops ->
  Forall (fun op => forall m, op = UMsg m -> ~ is_cc 65 m /\ ~ is_cc 78 m /\ ~ odd_envelope m) ops -> exists s tr, watched r mw hw mem ops s tr.
Proof. exact screen_total. Qed.
Print Assumptions C78_total_partial.
Example C78_nonvacuous : Forall uop_ok (played_song ++ [fr]) /\ Forall (fun op => forall m, op = UMsg m -> ~ is_cc 65 m) (played_song ++ [fr]) /\
  exists a tr, app_boot (shipped false) no_cartridge blank_memory (map heard (played_song ++ [fr])) = Done tt a tr.
Proof. exact c78_example. Qed.
(** A glide that overshoots its target (C41) makes the screen read past its table of note names. *)
Theorem C78_refuted : ~ (forall r mw hw mem ops a tr, rom_ok r -> mem_ok mem -> Forall uop_ok ops -> app_boot r hw mem (map heard ops) = Done tt a tr ->
  exists u, watched r mw hw mem ops (mkSys a u) tr).
Proof. exact c78_refuted. Qed.
Print Assumptions C78_refuted.

(** ** C79 *)
(** Five frames after the last message the routing icon and the special mode mark are right. *)
Theorem C79_icons : forall r mw hw mem ops later s tr,
  watched r mw hw mem (ops ++ later) s tr -> Forall is_frame later -> 5 <= elapsed later ->
  routing_icon s = md_dyn (midi_of s) /\ special_mark (scr_of s) (s_special (synth_of s)).
Proof. exact icons_shown. Qed.
Print Assumptions C79_icons.
(** The transport that answered is named five frames later, "waiting" before that, and it
    stays once it is named. *)
Theorem C79_transport : forall r mw hw mem ops later s tr M, watched r mw hw mem (ops ++ later) s tr ->
  Forall (fun op => uses mw DISCOVERY op \/ uses mw M op) ops -> Forall is_frame later -> Forall (uses mw M) later -> 5 <= elapsed later ->
  shows_mode (scr_of s) M.
Proof. exact transport_shown. Qed.
Print Assumptions C79_transport.
Theorem C79_waiting : forall r mw hw mem ops s tr, watched r mw hw mem ops s tr -> Forall (uses mw DISCOVERY) ops -> shows_mode (scr_of s) DISCOVERY.
Proof. exact waiting_shown. Qed.
Print Assumptions C79_waiting.
Theorem C79_stays : forall r mw hw mem ops more s tr s' tr' M, watched r mw hw mem ops s tr -> 2 <= M <= 6 -> shows_mode (scr_of s) M ->
  watched r mw hw mem (ops ++ more) s' tr' -> shows_mode (scr_of s') M.
Proof. exact transport_stays. Qed.
Print Assumptions C79_stays.
Example C79_nonvacuous : exists s tr, seen ([UMsg (own_sysex 3 [1])] ++ [pro_frame]) s tr /\ md_dyn (midi_of s) = true /\ routing_icon s = true /\
  shows_mode (scr_of s) 3.
Proof. exact c79_example. Qed.

(** ** C80 *)
(** The fixed texts of the screen are never overwritten. *)
Theorem C80_texts : forall r mw hw mem ops s tr, watched r mw hw mem ops s tr ->
  Forall (fun h : Z * Z * string => shows (scr_of s) (fst (fst h)) (snd (fst h)) (snd h)) fixed_texts.
Proof. exact texts_fixed. Qed.
Print Assumptions C80_texts.
Example C80_nonvacuous : exists s tr, seen [say "Hello"; say "World"] s tr /\ logged 0 [say "Hello"; say "World"] = [str "Hello"] ++ [str "World"] /\
  shows (scr_of s) 4 23 "Hello" /\ shows (scr_of s) 4 24 "World".
Proof. exact c81_example. Qed.

(** ** C81 *)
(** The last message of the log is on the screen, and above it the one before it. *)
Theorem C81_log : forall r mw hw mem ops s tr l m, watched r mw hw mem ops s tr -> logged 0 ops = l ++ [m] ->
  line (scr_of s) (if Nat.even (List.length l) then 23 else 24) m /\
  (forall l' m', l = l' ++ [m'] -> Nat.even (List.length l) = false -> line (scr_of s) 23 m').
Proof. exact log_shown. Qed.
Print Assumptions C81_log.
Example C81_nonvacuous : exists s tr, seen [say "Hello"; say "World"] s tr /\ logged 0 [say "Hello"; say "World"] = [str "Hello"] ++ [str "World"] /\
  shows (scr_of s) 4 23 "Hello" /\ shows (scr_of s) 4 24 "World".
Proof. exact c81_example. Qed.
(** But the line may end in what is left of an earlier message. *)
Theorem C81_refuted : ~ (forall r mw hw mem ops s tr l m, watched r mw hw mem ops s tr -> logged 0 ops = l ++ [m] -> Nat.even (List.length l) = true ->
  forall x, 4 + Z.of_nat (List.length m) <= x < 40 -> scr_of s x 23 = 32).
Proof. exact c81_refuted. Qed.
Print Assumptions C81_refuted.

(** ** C82 *)
(** The screen at power-on. *)
Theorem C82_power_on : forall r mw hw mem s tr, watched r mw hw mem [] s tr ->
  (forall i, 0 <= i < 10 -> no_note (scr_of s) i /\ empty (scr_of s) 11 (row i) 7 /\ shows_number (scr_of s) 4 (row i) 2 (i + 1)) /\
  shows_mode (scr_of s) DISCOVERY /\ special_mark (scr_of s) false /\ routing_icon s = false /\ panel_blank (scr_of s) /\ no_diagram s.
Proof. exact power_on_screen. Qed.
Print Assumptions C82_power_on.
(** While waiting it names the cartridge that was detected, and not once a transport is named. *)
Theorem C82_cartridge : forall r mw hw mem ops s tr, watched r mw hw mem ops s tr -> hw_ok hw -> shows_mode (scr_of s) DISCOVERY ->
  (sees_pro hw -> shows_attached (scr_of s) PIC_WAIT_EDPRO) /\
  (~ sees_pro hw -> sees_x7 hw -> shows_attached (scr_of s) PIC_WAIT_EDX7) /\
  (~ sees_pro hw -> ~ sees_x7 hw -> empty (scr_of s) 17 26 5).
Proof. exact devices_shown. Qed.
Print Assumptions C82_cartridge.
Theorem C82_gone : forall r mw hw mem ops s tr M, watched r mw hw mem ops s tr -> 2 <= M <= 6 -> shows_mode (scr_of s) M -> empty (scr_of s) 17 26 5.
Proof. exact attached_gone. Qed.
Print Assumptions C82_gone.
Example C82_nonvacuous : exists s tr s' tr', watched (shipped false) false with_pro blank_memory [] s tr /\ shows_mode (scr_of s) DISCOVERY /\ hw_ok with_pro /\ sees_pro with_pro /\
  watched (shipped false) false with_x7 blank_memory [] s' tr' /\ shows_mode (scr_of s') DISCOVERY /\ hw_ok with_x7 /\ ~ sees_pro with_x7 /\ sees_x7 with_x7.
Proof. exact c82_example. Qed.

(** ** C83 *)
(** The four load lamps: dark before the first measurement; afterwards lamp [k] is on
    exactly when the last measurement found a byte in some poll and in at least
    [25 * k] percent of them. *)
Theorem C83_lamps : forall r mw hw mem ops s tr, watched r mw hw mem ops s tr ->
  (measured 0 ops = [] -> forall k, 0 <= k < 4 -> lamp (scr_of s) k false) /\
  forall l c, measured 0 ops = l ++ [c] -> 0 <= cm_idle c -> 0 <= cm_reads c ->
    0 <= busy_percent c <= 100 /\ forall k, 0 <= k < 4 -> exists on, lamp (scr_of s) k on /\ (on = true <-> 0 < busy_percent c /\ 25 * k <= busy_percent c).
Proof. exact lamps_shown. Qed.
Print Assumptions C83_lamps.
Example C83_nonvacuous : exists s tr s' tr', seen [UFrame 14 comm0 None; fr; busy_frame; fr5] s tr /\ measured 0 [UFrame 14 comm0 None; fr; busy_frame; fr5] = [comm0] ++ [mkComm (Some 1%nat) 1 3] /\
  busy_percent (mkComm (Some 1%nat) 1 3) = 75 /\ lamp (scr_of s) 0 true /\ lamp (scr_of s) 3 true /\
  seen [busy_frame; idle_frame] s' tr' /\ lamp (scr_of s') 0 false /\ lamp (scr_of s') 3 false.
Proof. exact c83_example. Qed.
