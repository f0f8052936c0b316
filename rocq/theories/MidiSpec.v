(** What users of the MIDI layer rely on, stated over its state, the messages
    it receives and the calls it makes to the sound layers. *)
From Verif Require Import Base PitchModel NotePriorityModel SynthModel MidiModel.
From Verif Require SynthSpec PsgSpec.

Definition seven (x : Z) : Prop := 0 <= x < 128.
Definition is_chan (c : Z) : Prop := 0 <= c < 16.
(** A device channel's assignment: a MIDI channel or "unassigned". *)
Definition valid_map (x : Z) : Prop := is_chan x \/ x = 0x7F.

(** ** Well-formed messages: 7-bit data bytes, 14-bit bend, at most 256 bytes
    of system exclusive data. *)
Definition mop_ok (op : mop) : Prop :=
  match op with
  | MNoteOn c p v => is_chan c /\ seven p /\ seven v
  | MNoteOff c p => is_chan c /\ seven p
  | MCc c k v => is_chan c /\ seven k /\ seven v
  | MProgram c p => is_chan c /\ seven p
  | MBend c b => is_chan c /\ 0 <= b < 16384
  | MSysex data => Forall seven data /\ (length data <= 256)%nat
  | MReset | MTick | MCallback _ => True
  end.

(** An envelope upload with an odd number of nibbles: the code reads a byte
    beyond the message. *)
Definition odd_envelope (op : mop) : Prop :=
  exists l, op = MSysex ([0x00; 0x22; 0x77; 0x06] ++ l) /\ Nat.Odd (length l).

(** ** Legal calls to the sound layers *)
(** Which (vtable, number) pairs name an existing sound channel. *)
Definition voice_ok (v : vtable) (n : Z) : Prop :=
  match v with VFm => 0 <= n < 6 | VPsg => 0 <= n < 4 | VSm => 0 <= n < 3 | VDac => n = 5 end.
Definition dcall_ok (c : dcall) : Prop :=
  match c with
  | DNoteOn v n p ce vel => voice_ok v n /\ 0 <= p < 256 /\ 0 <= ce < 100 /\ seven vel
  | DNoteOff v n p => voice_ok v n /\ seven p
  | DVolume v n x | DProgram v n x | DPan v n x => voice_ok v n /\ seven x
  | DAllOff v n => voice_ok v n
  | DPitch v n p ce => voice_ok v n /\ 0 <= p < 256 /\ 0 <= ce < 100
  | DPerc n _ => 0 <= n < 6
  | DSynth op => SynthSpec.sop_ok op
  | DEnv e => PsgSpec.loadable e
  | DStore prog p => seven prog /\ SynthSpec.preset_ok p
  | DClear prog | DDumpPreset prog => seven prog
  | DStoreFrom n prog => 0 <= n < 6 /\ seven prog
  | DDumpChan c n => is_chan c /\ 0 <= n < 6
  | DTx data => Forall seven data
  | DPsgInit | DFmInit | DPsgReset | DFmReset | DSmReset | DChange _ _ _ _ | DUi _ _ => True
  end.

(** ** Well-formed states *)
(** The keys remembered by a channel's note stack, oldest first. *)
Definition keys (st : npstack) : list Z := firstn (Z.to_nat (np_top st + 1)) (np_slot st).
Definition stack_ok (st : npstack) : Prop :=
  length (np_slot st) = 10%nat /\ -1 <= np_top st <= 9 /\ Forall seven (keys st).

(** Which sound channel device channel [i] drives. *)
Definition shape_ok (i : Z) (d : dev) : Prop :=
  (i < 6 -> d_num d = i /\ (d_ops d = VFm \/ i = 5 /\ d_ops d = VDac)) /\
  (6 <= i < 10 -> d_num d = i - 6 /\ d_ops d = VPsg) /\
  (10 <= i -> d_num d = i - 10 /\ d_ops d = VSm).
Definition dev_ok (i : Z) (d : dev) : Prop :=
  shape_ok i d /\ valid_map (d_midi d) /\ seven (d_prog d) /\ 0 <= d_pitch d < 256 /\ seven (d_vol d) /\
  seven (d_pan d) /\ 0 <= d_bend d < 16384 /\ 0 <= d_cents d < 100 /\ seven (d_glide d).
Definition ch_ok (i : Z) (m : mchan) : Prop :=
  m_num m = i /\ seven (m_vol m) /\ seven (m_prog m) /\ seven (m_pan m) /\ 0 <= m_bend m < 16384 /\
  seven (pc_pitch (m_range m)) /\ seven (pc_cents (m_range m)) /\ seven (m_vel m) /\ stack_ok (m_np m) /\
  0 <= m_sel m < 4 /\ 1 <= m_int m <= 1145 /\ -64 <= m_fine m < 64.
Definition midi_ok (s : midi) : Prop :=
  length (md_dev s) = 13%nat /\ length (md_ch s) = 16%nat /\
  (forall i d, zget (md_dev s) i = Some d -> dev_ok i d) /\
  (forall i m, zget (md_ch s) i = Some m -> ch_ok i m) /\
  0 <= md_pref s <= 2.

(** ** Histories *)
(** [s] is the state and [o] the calls after power-on and the messages [ops]. *)
Definition boots_to (ops : list mop) (s : midi) (o : list dcall) : Prop :=
  Forall mop_ok ops /\ midi_boot ops = WDone s o.
(** One message takes [s] to [s'] making the calls [o]. *)
Definition steps (s : midi) (op : mop) (s' : midi) (o : list dcall) : Prop := midi_step op s = WDone s' o.

(** Device channel [i] of a state. *)
Definition dev_at (s : midi) (i : Z) (d : dev) : Prop := zget (md_dev s) i = Some d.
Definition ch_at (s : midi) (c : Z) (m : mchan) : Prop := zget (md_ch s) c = Some m.
Definition serves (s : midi) (c i : Z) (d : dev) : Prop := dev_at s i d /\ d_midi d = c.

(** The note a device channel plays: the key it is gliding to, if any. *)
Definition note_of (d : dev) : Z := if d_glide d =? 0 then d_pitch d else d_glide d.
(** Device channel [i] sounds note [p] for MIDI channel [c]. *)
Definition sounds (s : midi) (c p : Z) : Prop :=
  exists i d, serves s c i d /\ d_on d = true /\ note_of d = p.

(** The sound channel a call addresses, if it addresses one. *)
Definition call_voice (c : dcall) : option (vtable * Z) :=
  match c with
  | DNoteOn v n _ _ _ | DNoteOff v n _ | DVolume v n _ | DProgram v n _ | DAllOff v n | DPan v n _
  | DPitch v n _ _ => Some (v, n)
  | _ => None
  end.

(** Keys held down by a player: pressed and not yet released. *)
Definition held_after (h : list (Z * Z)) (op : mop) : list (Z * Z) :=
  let drop c p := filter (fun k => negb ((fst k =? c) && (snd k =? p))) h in
  match op with
  | MNoteOn c p v => if v =? 0 then drop c p else (c, p) :: h
  | MNoteOff c p => drop c p
  | _ => h
  end.
Definition held (ops : list mop) : list (Z * Z) := fold_left held_after ops [].

(** SysEx commands of this interface (manufacturer id 00 22 77). *)
Definition own_sysex (cmd : Z) (args : list Z) : mop := MSysex ([0x00; 0x22; 0x77; cmd] ++ args).
Definition is_sysex_cmd (cmd : Z) (op : mop) : Prop := exists args, op = own_sysex cmd args.
Definition gm_reset_msg (op : mop) : Prop := exists t, op = MSysex ([0x7E; 0x7F; 0x09; 0x01] ++ t).
Definition is_cc (k : Z) (op : mop) : Prop := exists c v, op = MCc c k v.

(** Messages that re-assign device channels behind the notes' back:
    polyphonic mode, Reset All Controllers, channel remapping, mapping mode. *)
Definition remapping (op : mop) : Prop :=
  is_cc 84 op \/ is_cc 121 op \/ is_sysex_cmd 0 op \/ is_sysex_cmd 3 op.

(** Notes sounding on the percussion channel (MIDI channel 10, number 9). *)
Definition percussion_notes (s : midi) : nat :=
  length (filter (fun d => (d_midi d =? 9) && d_on d) (md_dev s)).

(** Static mapping: device channel [i] serves MIDI channel [i]. *)
Definition static_map (s : midi) : Prop :=
  md_dyn s = false /\ forall i d, dev_at s i d -> d_midi d = i.
Definition remaps (op : mop) : Prop := is_cc 84 op \/ is_sysex_cmd 0 op \/ is_sysex_cmd 3 op \/ gm_reset_msg op.
(** The sound channel MIDI channel [c] drives in static mode. *)
Definition static_voice (c : Z) (w : vtable * Z) : Prop :=
  0 <= c < 6 /\ w = (VFm, c) \/ c = 5 /\ w = (VDac, 5) \/ 6 <= c < 10 /\ w = (VPsg, c - 6) \/
  10 <= c < 13 /\ w = (VSm, c - 10).
(** Note, volume, pan, program, bend and note-silencing messages on channel [c]. *)
Definition note_or_setting (c : Z) (op : mop) : Prop :=
  (exists p v, op = MNoteOn c p v) \/ (exists p, op = MNoteOff c p) \/
  (exists k v, op = MCc c k v /\ (k = 7 \/ k = 10 \/ k = 123 \/ k = 120)) \/
  (exists p, op = MProgram c p) \/ (exists b, op = MBend c b).

(** Any message whose bytes are bytes: data not limited to 7 bits. *)
Definition byte (x : Z) : Prop := 0 <= x < 256.
Definition mop_bytes (op : mop) : Prop :=
  match op with
  | MNoteOn c p v => is_chan c /\ byte p /\ byte v
  | MNoteOff c p => is_chan c /\ byte p
  | MCc c k v => is_chan c /\ byte k /\ byte v
  | MProgram c p => is_chan c /\ byte p
  | MBend c b => is_chan c /\ 0 <= b < 65536
  | MSysex data => Forall byte data
  | MReset | MTick | MCallback _ => True
  end.

(** The MIDI channel a channel message is sent on. *)
Definition on_channel (op : mop) : option Z :=
  match op with
  | MNoteOn c _ _ | MNoteOff c _ | MCc c _ _ | MProgram c _ | MBend c _ => Some c
  | MSysex _ | MReset | MTick | MCallback _ => None
  end.
Definition is_note_on (op : mop) : Prop := exists c p v, op = MNoteOn c p v.

(** ** Settings of a MIDI channel as a player expects them *)
Record setting := mkSetting {
  st_vol : Z; st_pan : Z; st_prog : Z; st_bend : Z;
  st_msb : option Z; st_lsb : option Z;      (* selected registered parameter *)
  st_semis : Z; st_cents : Z }.              (* pitch bend range *)
Definition default_setting : setting := mkSetting 127 64 0 8192 None None 2 0.
Definition range_selected (t : setting) : bool :=
  match st_msb t, st_lsb t with Some 0, Some 0 => true | _, _ => false end.
Definition after_cc (t : setting) (k v : Z) : setting :=
  if k =? 7 then mkSetting v (st_pan t) (st_prog t) (st_bend t) (st_msb t) (st_lsb t) (st_semis t) (st_cents t)
  else if k =? 10 then mkSetting (st_vol t) v (st_prog t) (st_bend t) (st_msb t) (st_lsb t) (st_semis t) (st_cents t)
  else if k =? 101 then mkSetting (st_vol t) (st_pan t) (st_prog t) (st_bend t) (Some v) (st_lsb t) (st_semis t) (st_cents t)
  else if k =? 100 then mkSetting (st_vol t) (st_pan t) (st_prog t) (st_bend t) (st_msb t) (Some v) (st_semis t) (st_cents t)
  else if (k =? 6) && range_selected t
  then mkSetting (st_vol t) (st_pan t) (st_prog t) (st_bend t) (st_msb t) (st_lsb t) v (st_cents t)
  else if (k =? 38) && range_selected t
  then mkSetting (st_vol t) (st_pan t) (st_prog t) (st_bend t) (st_msb t) (st_lsb t) (st_semis t) v
  else if k =? 121 then default_setting
  else t.
Definition at_channel (f : Z -> setting) (c : Z) (t : setting) : Z -> setting := fun b => if b =? c then t else f b.
Definition is_gm_reset (data : list Z) : bool :=
  match data with a :: b :: c :: d :: _ => (a =? 0x7E) && (b =? 0x7F) && (c =? 0x09) && (d =? 0x01) | _ => false end.
Definition settings_after (f : Z -> setting) (op : mop) : Z -> setting :=
  match op with
  | MCc c k v => at_channel f c (after_cc (f c) k v)
  | MProgram c p => at_channel f c (mkSetting (st_vol (f c)) (st_pan (f c)) p (st_bend (f c)) (st_msb (f c)) (st_lsb (f c)) (st_semis (f c)) (st_cents (f c)))
  | MBend c b => at_channel f c (mkSetting (st_vol (f c)) (st_pan (f c)) (st_prog (f c)) b (st_msb (f c)) (st_lsb (f c)) (st_semis (f c)) (st_cents (f c)))
  | MReset => fun _ => default_setting
  | MSysex data => if is_gm_reset data then fun _ => default_setting else f
  | _ => f
  end.
Definition settings (ops : list mop) : Z -> setting := fold_left settings_after ops (fun _ => default_setting).

(** ** System exclusive framing *)
Definition starts_with (p data : list Z) : Prop := exists t, data = p ++ t.
Definition gm_header : list Z := [0x7E; 0x7F; 0x09; 0x01].
Definition own_header : list Z := [0x00; 0x22; 0x77].
(** Number of argument bytes of each command: [Some None] for the two commands
    with a variable number, [None] for commands that do not exist. *)
Definition arg_count (cmd : Z) : option (option nat) :=
  match cmd with
  | 0x00 => Some (Some 2%nat) | 0x01 => Some None | 0x03 => Some (Some 1%nat) | 0x04 => Some (Some 1%nat)
  | 0x05 => Some (Some 1%nat) | 0x06 => Some None | 0x07 => Some (Some 1%nat) | 0x08 => Some (Some 4%nat)
  | 0x09 => Some (Some 4%nat) | 0x0A => Some (Some 50%nat) | 0x0B => Some (Some 2%nat) | 0x0C => Some (Some 1%nat)
  | 0x0D => Some (Some 2%nat) | 0x0F => Some (Some 2%nat) | _ => None
  end.
Definition ill_formed (data : list Z) : Prop :=
  (length data < 4)%nat \/
  (~ starts_with gm_header data /\ ~ starts_with own_header data) \/
  (exists cmd args, data = own_header ++ cmd :: args /\
     (arg_count cmd = None \/ exists n, arg_count cmd = Some (Some n) /\ length args <> n)).

(** ** FM parameter controllers *)
(** What controller [k] sets on FM channel [n] when the field gets value [x]. *)
Definition fm_controls (k n x : Z) : option sop :=
  let four base (f : Z -> sop) := if (base <=? k) && (k <? base + 4) then Some (f (k - base)) else None in
  let alts := fix alts (l : list (option sop)) := match l with [] => None | Some a :: _ => Some a | None :: t => alts t end in
  alts [ (if k =? 14 then Some (SAlgorithm n x) else None); (if k =? 15 then Some (SFeedback n x) else None);
         four 16 (fun op => STotalLevel n op x); four 20 (fun op => SMultiple n op x);
         four 24 (fun op => SDetune n op x); four 39 (fun op => SRateScaling n op x);
         four 43 (fun op => SAttackRate n op x); four 47 (fun op => SDecayRate n op x);
         four 51 (fun op => SSustainRate n op x); four 55 (fun op => SSustainLevel n op x);
         four 59 (fun op => SReleaseRate n op x); four 70 (fun op => SAmpMod n op x);
         four 90 (fun op => SSsgEg n op x); (if k =? 74 then Some (SEnableLfo x) else None);
         (if k =? 1 then Some (SLfoFrequency x) else None); (if k =? 75 then Some (SFms n x) else None);
         (if k =? 76 then Some (SAms n x) else None); (if k =? 77 then Some (SStereo n x) else None) ].
(** The largest value of the chip's field behind controller [k]. *)
Definition field_max (k : Z) : Z :=
  let four base := (base <=? k) && (k <? base + 4) in
  if (k =? 14) || (k =? 15) || (k =? 1) || (k =? 75) || four 24 then 7
  else if four 16 then 127
  else if four 43 || four 47 || four 51 then 31
  else if four 20 || four 55 || four 59 || four 90 then 15
  else if four 39 || (k =? 76) || (k =? 77) then 3
  else 1.
Definition is_fm_controller (k : Z) : Prop := fm_controls k 0 0 <> None.
(** Controllers outside General MIDI that the "non-GM CCs" option covers. *)
Definition covered_cc (k : Z) : Prop := is_fm_controller k \/ k = 78 \/ k = 83 \/ k = 85 \/ k = 86.

(** Where a device channel is on the pitch scale, in cents. *)
Definition position (d : dev) : Z := 100 * d_pitch d + d_cents d.
(** Device channel [i] is gliding for a MIDI channel with portamento on. *)
Definition gliding (s : midi) (i : Z) (d : dev) (m : mchan) : Prop :=
  dev_at s i d /\ ch_at s (d_midi d) m /\ d_on d = true /\ m_porta m = true /\ d_glide d <> 0.
(** Gliding up, or down to a key at least one frame's step above key 0. *)
Definition reachable_target (m : mchan) (d : dev) : Prop :=
  position d <= 100 * d_glide d \/ m_int m <= 100 * d_glide d.

(** ** One voice, several keys *)
(** Keys pressed and released on a channel. *)
Definition presses (c : Z) (l : list (Z * Z)) : list mop := map (fun k => MNoteOn c (fst k) (snd k)) l.
Definition releases (c : Z) (l : list (Z * Z)) : list mop := map (fun k => MNoteOff c (fst k)) l.
(** A legato line: each key is pressed before the previous one is let go. *)
Fixpoint legato (c a : Z) (l : list (Z * Z)) : list mop :=
  match l with
  | [] => []
  | (p, v) :: t => MNoteOn c p v :: MNoteOff c a :: legato c p t
  end.
(** The key a player expects from a single voice: the last one pressed that is still down. *)
Definition expected_key (c : Z) (ops : list mop) : option Z :=
  hd_error (map snd (filter (fun k => fst k =? c) (held ops))).
(** Channel [c] sounds exactly key [p], or nothing. *)
Definition sounds_only (s : midi) (c : Z) (k : option Z) : Prop := forall p, sounds s c p <-> k = Some p.
(** An idle, non-gliding channel in the static mapping. *)
Definition mono_idle (s : midi) (c : Z) : Prop :=
  midi_ok s /\ static_map s /\ 0 <= c < 13 /\
  (exists m, ch_at s c m /\ m_porta m = false /\ keys (m_np m) = []) /\
  (exists d, dev_at s c d /\ d_on d = false /\ d_glide d = 0).
Definition playable (k : Z * Z) : Prop := 1 <= fst k <= 127 /\ 1 <= snd k <= 127.

(** ** Note placement, routing and isolation *)
(** Note-ons with velocity 0 written as note-offs. *)
Definition no_zero_velocity (op : mop) : mop :=
  match op with MNoteOn c p v => if v =? 0 then MNoteOff c p else op | _ => op end.

(** No portamento switch and no re-assignment. *)
Definition plain_op (op : mop) : Prop := ~ is_cc 65 op /\ ~ remapping op.

(** The calls a message on channel [c] may make. *)
Definition routed (s : midi) (c : Z) (x : dcall) : Prop :=
  match call_voice x with
  | Some w => exists i d, serves s c i d /\ w = (d_ops d, d_num d)
  | None => match x with
            | DPerc n b => b = (c =? 9) /\ exists i d, serves s c i d /\ n = d_num d
            | DChange _ c' _ _ => c' = c
            | _ => False
            end
  end.

(** What a call made for message [op] on channel [a] may address: the voices serving [a],
    or, for a new note in dynamic mode, a silent one of the first ten. *)
Definition open_to (s : midi) (op : mop) (a i : Z) (d : dev) : Prop :=
  d_midi d = a \/ is_note_on op /\ md_dyn s = true /\ d_on d = false /\ i < 10.
Definition reaches (s : midi) (op : mop) (a : Z) (x : dcall) : Prop :=
  (forall w, call_voice x = Some w -> exists i d, dev_at s i d /\ open_to s op a i d /\ w = (d_ops d, d_num d)) /\
  (forall op n, x = DSynth op -> SynthSpec.sop_chan op = Some n -> exists i d, serves s a i d /\ n = d_num d) /\
  (forall n p, x = DStoreFrom n p -> exists i d, serves s a i d /\ d_ops d = VFm /\ n = d_num d).

(** Channel messages that re-assign device channels: polyphonic mode, Reset All Controllers, DAC. *)
Definition reassigning (op : mop) : Prop := is_cc 84 op \/ is_cc 121 op \/ is_cc 78 op.

Definition carries (m : mchan) (d : dev) : Prop :=
  d_vol d = m_vol m /\ d_pan d = m_pan m /\ d_prog d = m_prog m /\ d_bend d = m_bend m.

(** Device channels a MIDI channel may use in dynamic mode: all, FM only, tones only, noise only. *)
Definition group_of (sel : Z) : Z * Z :=
  if sel =? 0 then (0, 8) else if sel =? 1 then (0, 5) else if sel =? 2 then (6, 8) else (9, 9).
(** Placement: a free suitable device channel in the selected group gets the note. *)
Definition candidate (s : midi) (m : mchan) (c i : Z) (d : dev) : Prop :=
  fst (group_of (m_sel m)) <= i <= snd (group_of (m_sel m)) /\ dev_at s i d /\
  d_on d = false /\ ~ (c = 9 /\ d_ops d = VPsg).

(** Key presses and releases on channel [c]. *)
Definition key_message (c : Z) (op : mop) : Prop :=
  (exists p v, op = MNoteOn c p v /\ playable (p, v)) \/ (exists p, op = MNoteOff c p /\ 1 <= p <= 127).
