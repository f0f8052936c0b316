(** Model of src/midi.c: allocation of device channels to MIDI channels and
    dispatch of MIDI messages.

    midi.c only ever calls downwards; apart from preset dumps it never looks at
    the state of the layers below.  The model therefore emits the calls midi.c
    makes, in order, as values of [dcall]; AppModel.v performs them on the
    models of the lower layers.  Calls to log_info/log_warn are left out. *)
From Verif Require Import Base PitchModel NotePriorityModel SynthModel.

(** ** Calls made by midi.c *)
(** The four vtables, midi.c:47-58. *)
Inductive vtable : Type := VFm | VPsg | VSm | VDac.
Definition vt_eqb (a b : vtable) : bool :=
  match a, b with VFm, VFm | VPsg, VPsg | VSm, VSm | VDac, VDac => true | _, _ => false end.

Inductive dcall : Type :=
| DNoteOn (v : vtable) (num pitch cents vel : Z)   (* ops->noteOn *)
| DNoteOff (v : vtable) (num pitch : Z)            (* ops->noteOff *)
| DVolume (v : vtable) (num vol : Z)               (* ops->channelVolume *)
| DProgram (v : vtable) (num prog : Z)             (* ops->program *)
| DAllOff (v : vtable) (num : Z)                   (* ops->allNotesOff *)
| DPan (v : vtable) (num pan : Z)                  (* ops->pan *)
| DPitch (v : vtable) (num pitch cents : Z)        (* ops->pitch *)
| DPerc (num : Z) (b : bool)                       (* midi_fm_percussive *)
| DSynth (op : sop)                                (* a function of synth.c *)
| DEnv (eef : list Z)                              (* midi_psg_load_envelope *)
| DStore (prog : Z) (p : preset)                   (* midi_fm_store_preset *)
| DClear (prog : Z)                                (* midi_fm_clear_preset *)
| DStoreFrom (num prog : Z)                        (* midi_fm_store_preset_from_channel *)
| DDumpPreset (prog : Z)                           (* get_stored_preset + send_preset_dump *)
| DDumpChan (midiChan num : Z)                     (* extract_preset + send_preset_dump *)
| DTx (data : list Z)                              (* midi_tx_send_sysex *)
| DPsgInit | DFmInit                               (* midi_psg_init, midi_fm_init *)
| DPsgReset | DFmReset | DSmReset                  (* midi_*_reset *)
| DChange (kind chan key value : Z)                (* changeCallback *)
| DUi (chan : Z) (show : bool).                    (* ui_fm_set_parameters_visibility *)

(** Result of a function: a value and the calls made, or undefined behaviour. *)
Inductive wres (A : Type) : Type := WDone (a : A) (o : list dcall) | WFault (f : fault).
Arguments WDone {A}. Arguments WFault {A}.
Definition wret {A} (a : A) : wres A := WDone a [].
Definition wbind {A B} (m : wres A) (k : A -> wres B) : wres B :=
  match m with
  | WFault f => WFault f
  | WDone a o => match k a with WFault f => WFault f | WDone b o' => WDone b (o ++ o') end
  end.
Definition wemit (c : dcall) : wres unit := WDone tt [c].
Notation "'let*' x := m 'in' k" := (wbind m (fun x => k)) (at level 200, x pattern, m at level 100, k at level 200).
Definition wget {A} (l : list A) (i : Z) : wres A :=
  match zget l i with Some x => wret x | None => WFault F_oob end.
Definition of_np {A} (m : M npstack A) (s : npstack) : wres (A * npstack) :=
  match m s with Done a s' _ => wret (a, s') | Fault f => WFault f end.

(** ** State *)
(** DeviceChannel, midi.h:149-161 *)
Record dev := mkDev {
  d_num : Z; d_ops : vtable; d_on : bool; d_midi : Z; d_prog : Z; d_pitch : Z; d_vol : Z; d_pan : Z;
  d_bend : Z; d_cents : Z; d_glide : Z }.
(** MidiChannel, midi.c:29-43; deviceSelect is the enum's number (Auto 0, FM 1,
    PSG_Tone 2, PSG_Noise 3). *)
Record mchan := mkMc {
  m_num : Z; m_vol : Z; m_prog : Z; m_pan : Z; m_bend : Z; m_range : pitchcents; m_vel : Z;
  m_np : npstack; m_sel : Z; m_porta : bool; m_int : Z; m_fine : Z; m_rpn : Z }.
(** Statics, midi.c:72-84; mappingModePref is the enum's number (Static 0,
    Dynamic 1, Auto 2); [md_cb] is "changeCallback != NULL". *)
Record midi := mkMidi {
  md_dev : list dev; md_ch : list mchan; md_dyn : bool; md_pref : Z; md_nogm : bool; md_stick : bool;
  md_inv : bool; md_cb : bool }.

Definition d_set_num d v := mkDev v (d_ops d) (d_on d) (d_midi d) (d_prog d) (d_pitch d) (d_vol d) (d_pan d) (d_bend d) (d_cents d) (d_glide d).
Definition d_set_ops d v := mkDev (d_num d) v (d_on d) (d_midi d) (d_prog d) (d_pitch d) (d_vol d) (d_pan d) (d_bend d) (d_cents d) (d_glide d).
Definition d_set_on d v := mkDev (d_num d) (d_ops d) v (d_midi d) (d_prog d) (d_pitch d) (d_vol d) (d_pan d) (d_bend d) (d_cents d) (d_glide d).
Definition d_set_midi d v := mkDev (d_num d) (d_ops d) (d_on d) v (d_prog d) (d_pitch d) (d_vol d) (d_pan d) (d_bend d) (d_cents d) (d_glide d).
Definition d_set_prog d v := mkDev (d_num d) (d_ops d) (d_on d) (d_midi d) v (d_pitch d) (d_vol d) (d_pan d) (d_bend d) (d_cents d) (d_glide d).
Definition d_set_pitch d v := mkDev (d_num d) (d_ops d) (d_on d) (d_midi d) (d_prog d) v (d_vol d) (d_pan d) (d_bend d) (d_cents d) (d_glide d).
Definition d_set_vol d v := mkDev (d_num d) (d_ops d) (d_on d) (d_midi d) (d_prog d) (d_pitch d) v (d_pan d) (d_bend d) (d_cents d) (d_glide d).
Definition d_set_pan d v := mkDev (d_num d) (d_ops d) (d_on d) (d_midi d) (d_prog d) (d_pitch d) (d_vol d) v (d_bend d) (d_cents d) (d_glide d).
Definition d_set_bend d v := mkDev (d_num d) (d_ops d) (d_on d) (d_midi d) (d_prog d) (d_pitch d) (d_vol d) (d_pan d) v (d_cents d) (d_glide d).
Definition d_set_cents d v := mkDev (d_num d) (d_ops d) (d_on d) (d_midi d) (d_prog d) (d_pitch d) (d_vol d) (d_pan d) (d_bend d) v (d_glide d).
Definition d_set_glide d v := mkDev (d_num d) (d_ops d) (d_on d) (d_midi d) (d_prog d) (d_pitch d) (d_vol d) (d_pan d) (d_bend d) (d_cents d) v.

Definition m_set_vol m v := mkMc (m_num m) v (m_prog m) (m_pan m) (m_bend m) (m_range m) (m_vel m) (m_np m) (m_sel m) (m_porta m) (m_int m) (m_fine m) (m_rpn m).
Definition m_set_prog m v := mkMc (m_num m) (m_vol m) v (m_pan m) (m_bend m) (m_range m) (m_vel m) (m_np m) (m_sel m) (m_porta m) (m_int m) (m_fine m) (m_rpn m).
Definition m_set_pan m v := mkMc (m_num m) (m_vol m) (m_prog m) v (m_bend m) (m_range m) (m_vel m) (m_np m) (m_sel m) (m_porta m) (m_int m) (m_fine m) (m_rpn m).
Definition m_set_bend m v := mkMc (m_num m) (m_vol m) (m_prog m) (m_pan m) v (m_range m) (m_vel m) (m_np m) (m_sel m) (m_porta m) (m_int m) (m_fine m) (m_rpn m).
Definition m_set_range m v := mkMc (m_num m) (m_vol m) (m_prog m) (m_pan m) (m_bend m) v (m_vel m) (m_np m) (m_sel m) (m_porta m) (m_int m) (m_fine m) (m_rpn m).
Definition m_set_vel m v := mkMc (m_num m) (m_vol m) (m_prog m) (m_pan m) (m_bend m) (m_range m) v (m_np m) (m_sel m) (m_porta m) (m_int m) (m_fine m) (m_rpn m).
Definition m_set_np m v := mkMc (m_num m) (m_vol m) (m_prog m) (m_pan m) (m_bend m) (m_range m) (m_vel m) v (m_sel m) (m_porta m) (m_int m) (m_fine m) (m_rpn m).
Definition m_set_sel m v := mkMc (m_num m) (m_vol m) (m_prog m) (m_pan m) (m_bend m) (m_range m) (m_vel m) (m_np m) v (m_porta m) (m_int m) (m_fine m) (m_rpn m).
Definition m_set_porta m v := mkMc (m_num m) (m_vol m) (m_prog m) (m_pan m) (m_bend m) (m_range m) (m_vel m) (m_np m) (m_sel m) v (m_int m) (m_fine m) (m_rpn m).
Definition m_set_int m v := mkMc (m_num m) (m_vol m) (m_prog m) (m_pan m) (m_bend m) (m_range m) (m_vel m) (m_np m) (m_sel m) (m_porta m) v (m_fine m) (m_rpn m).
Definition m_set_fine m v := mkMc (m_num m) (m_vol m) (m_prog m) (m_pan m) (m_bend m) (m_range m) (m_vel m) (m_np m) (m_sel m) (m_porta m) (m_int m) v (m_rpn m).
Definition m_set_rpn m v := mkMc (m_num m) (m_vol m) (m_prog m) (m_pan m) (m_bend m) (m_range m) (m_vel m) (m_np m) (m_sel m) (m_porta m) (m_int m) (m_fine m) v.

Definition md_set_dev s v := mkMidi v (md_ch s) (md_dyn s) (md_pref s) (md_nogm s) (md_stick s) (md_inv s) (md_cb s).
Definition md_set_ch s v := mkMidi (md_dev s) v (md_dyn s) (md_pref s) (md_nogm s) (md_stick s) (md_inv s) (md_cb s).
Definition md_set_dyn s v := mkMidi (md_dev s) (md_ch s) v (md_pref s) (md_nogm s) (md_stick s) (md_inv s) (md_cb s).
Definition md_set_pref s v := mkMidi (md_dev s) (md_ch s) (md_dyn s) v (md_nogm s) (md_stick s) (md_inv s) (md_cb s).
Definition md_set_nogm s v := mkMidi (md_dev s) (md_ch s) (md_dyn s) (md_pref s) v (md_stick s) (md_inv s) (md_cb s).
Definition md_set_stick s v := mkMidi (md_dev s) (md_ch s) (md_dyn s) (md_pref s) (md_nogm s) v (md_inv s) (md_cb s).
Definition md_set_inv s v := mkMidi (md_dev s) (md_ch s) (md_dyn s) (md_pref s) (md_nogm s) (md_stick s) v (md_cb s).
Definition md_set_cb s v := mkMidi (md_dev s) (md_ch s) (md_dyn s) (md_pref s) (md_nogm s) (md_stick s) (md_inv s) v.

(** Constants, midi.h:6-30, midi.c:17-25. *)
Definition DEV_CHANS := 13.
Definition MIDI_CHANNELS := 16.
Definition UNASSIGNED := 0x7F.
Definition PERCUSSION := 9.
Definition BEND_CENTRE := 0x2000.
Definition NULL_RPN := 0x7F7F.

(** RANGE, midi.c:18 *)
Definition RANGE (value range : Z) : Z := Z.quot value (Z.quot 128 range).

(** portaTimeToInterval, midi.c:64-70 *)
Definition portaTimeToInterval : list Z := [1145; 1089; 1036; 985; 937; 892; 848; 807; 768; 730;
  694; 661; 628; 598; 569; 541; 514; 489; 466; 443; 421; 401; 381; 363; 345; 328; 312; 297; 282; 269;
  255; 243; 231; 220; 209; 199; 189; 180; 171; 163; 155; 147; 140; 133; 127; 121; 115; 109; 104; 99;
  94; 89; 85; 81; 77; 73; 70; 66; 63; 60; 57; 54; 52; 49; 47; 44; 42; 40; 38; 36; 35; 33; 31; 30; 28;
  27; 26; 24; 23; 22; 21; 20; 19; 18; 17; 16; 16; 15; 14; 13; 13; 12; 12; 11; 10; 10; 9; 9; 9; 8; 8;
  7; 7; 7; 6; 6; 6; 5; 5; 5; 5; 4; 4; 4; 4; 4; 3; 3; 3; 3; 3; 3; 3; 2; 2; 2; 2; 1].

(** FOREACH_DEV_CHAN_WITH_MIDI, midi.c:20-24, for bodies that change only the
    visited device channel. *)
Fixpoint for_with (mc : Z) (f : dev -> wres dev) (l : list dev) : wres (list dev) :=
  match l with
  | [] => wret []
  | d :: t =>
      let* d' := (if d_midi d =? mc then f d else wret d) in
      let* t' := for_with mc f t in
      wret (d' :: t')
  end.

(** ** Device channels *)
(** midi.c:344-350 *)
Definition update_volume (m : mchan) (d : dev) : wres dev :=
  if negb (d_vol d =? m_vol m) then
    let* _ := wemit (DVolume (d_ops d) (d_num d) (m_vol m)) in wret (d_set_vol d (m_vol m))
  else wret d.

(** midi.c:352-358 *)
Definition update_pan (m : mchan) (d : dev) : wres dev :=
  if negb (d_pan d =? m_pan m) then
    let* _ := wemit (DPan (d_ops d) (d_num d) (m_pan m)) in wret (d_set_pan d (m_pan m))
  else wret d.

(** midi.c:404-410 *)
Definition effectivePitchCents (chs : list mchan) (d : dev) : wres pitchcents :=
  let* m := wget chs (d_midi d) in
  wret (pc_shift (pc_bend (d_pitch d) (d_cents d) (d_bend d) (m_range m)) (m_fine m)).

(** midi.c:412-416 *)
Definition set_downstream_pitch (chs : list mchan) (d : dev) : wres unit :=
  let* pc := effectivePitchCents chs d in
  wemit (DPitch (d_ops d) (d_num d) (pc_pitch pc) (pc_cents pc)).

(** midi.c:418-422 *)
Definition set_downstream_note_on (chs : list mchan) (d : dev) (velocity : Z) : wres unit :=
  let* pc := effectivePitchCents chs d in
  wemit (DNoteOn (d_ops d) (d_num d) (pc_pitch pc) (pc_cents pc) velocity).

(** midi.c:360-366 *)
Definition update_pitch_bend (chs : list mchan) (m : mchan) (d : dev) : wres dev :=
  if negb (d_bend d =? m_bend m) then
    let d := d_set_bend d (m_bend m) in
    let* _ := set_downstream_pitch chs d in wret d
  else wret d.

(** midi.c:368-374 *)
Definition update_program (m : mchan) (d : dev) : wres dev :=
  if negb (d_prog d =? m_prog m) then
    let* _ := wemit (DProgram (d_ops d) (d_num d) (m_prog m)) in wret (d_set_prog d (m_prog m))
  else wret d.

(** midi.c:389-397 *)
Definition update_from_midi (chs : list mchan) (d : dev) : wres dev :=
  let* m := wget chs (d_midi d) in
  let* _ := wemit (DPerc (d_num d) (d_midi d =? PERCUSSION)) in
  let* d := update_volume m d in
  let* d := update_pan m d in
  let* d := update_program m d in
  update_pitch_bend chs m d.

(** midi.c:145-161 *)
Definition init_midi_channel (midiChan : Z) : mchan :=
  mkMc midiChan 127 0 64 BEND_CENTRE (mkPc 2 0) 0 note_priority_init 0 false 47 0 NULL_RPN.

(** midi.c:163-183 *)
Definition init_device_channel (chs : list mchan) (devChan : Z) (d : dev) : wres dev :=
  let d := if devChan <=? 5 then d_set_ops (d_set_num d devChan) VFm
           else if devChan <=? 9 then d_set_ops (d_set_num d (u8 (devChan - 6))) VPsg
           else d_set_ops (d_set_num d (u8 (devChan - 10))) VSm in
  let d := d_set_on d false in
  let d := d_set_midi d devChan in
  let d := d_set_pitch d 0 in
  let d := d_set_cents d 0 in
  let d := d_set_bend d BEND_CENTRE in
  let d := d_set_glide d 0 in
  update_from_midi chs d.

(** Applying [init_device_channel] to a selection of the device channels in
    order, midi.c:139-141 (all), 544-549 (those of one MIDI channel). *)
Fixpoint init_devices (chs : list mchan) (sel : dev -> bool) (i : Z) (l : list dev) : wres (list dev) :=
  match l with
  | [] => wret []
  | d :: t =>
      let* d' := (if sel d then init_device_channel chs i d else wret d) in
      let* t' := init_devices chs sel (i + 1) t in
      wret (d' :: t')
  end.

(** midi.c:971-977 *)
Fixpoint assign_modes (dyn : bool) (i : Z) (l : list dev) : list dev :=
  match l with
  | [] => []
  | d :: t => d_set_midi d (if dyn then UNASSIGNED else i) :: assign_modes dyn (i + 1) t
  end.
Definition apply_dynamic_mode (s : midi) : midi := md_set_dev s (assign_modes (md_dyn s) 0 (md_dev s)).

(** midi.c:134-143 *)
Definition reset_channels (s : midi) : wres midi :=
  let s := md_set_ch s (map init_midi_channel (zseq 0 16)) in
  let* devs := init_devices (md_ch s) (fun _ => true) 0 (md_dev s) in
  wret (apply_dynamic_mode (md_set_dev s devs)).

(** midi.c:119-132; DEFAULT_MAPPING_MODE is MappingMode_Auto (user_prefs.h:9). *)
Definition reset (s : midi) : wres midi :=
  let* _ := wemit DPsgReset in
  let* _ := wemit DFmReset in
  let* _ := wemit DSmReset in
  let s := mkMidi (md_dev s) (md_ch s) (md_dyn s) 2 false false false (md_cb s) in
  let s := md_set_dyn s (md_pref s =? 1) in
  reset_channels s.

(** midi.c:106-117 (scheduler registration: SchedulerModel) *)
Definition midi_init (s : midi) : wres midi :=
  let s := md_set_cb s false in
  let* _ := wemit DPsgInit in
  let* _ := wemit DFmInit in
  reset s.

(** ** Allocation *)
(** midi.c:185-189: the u16 glide target is cut to a u8. *)
Definition isChannelPlayingNote (d : dev) (pitch : Z) : bool :=
  let effectivePitch := if negb (d_glide d =? 0) then u8 (d_glide d) else d_pitch d in
  d_on d && (effectivePitch =? pitch).

(** midi.c:191-194 *)
Definition isPsgAndIncomingChanIsPercussive (d : dev) (inc : Z) : bool :=
  vt_eqb (d_ops d) VPsg && (inc =? PERCUSSION).

(** midi.c:196-199 *)
Definition isChannelSuitable (d : dev) (inc : Z) : bool :=
  negb (d_on d) && negb (isPsgAndIncomingChanIsPercussive d inc).

(** A loop returning the first device channel in [is] satisfying [p]. *)
Fixpoint find_dev (devs : list dev) (p : dev -> bool) (is : list Z) : wres (option Z) :=
  match is with
  | [] => wret None
  | i :: t => let* d := wget devs i in if p d then wret (Some i) else find_dev devs p t
  end.

(** [for (i = a; i <= b; i++)] *)
Definition upto (a b : Z) : list Z := zseq a (Z.to_nat (b + 1 - a)).

(** midi.c:201-212 *)
Definition findFreeMidiAssignedChannel (devs : list dev) (inc lo hi : Z) : wres (option Z) :=
  find_dev devs (fun d => (d_midi d =? inc) && isChannelSuitable d inc) (upto lo hi).

(** midi.c:214-231: the outer loop tries each square wave program. *)
Fixpoint square_loop (devs : list dev) (m : mchan) (inc : Z) (programs : list Z) : wres (option Z) :=
  match programs with
  | [] => wret None
  | p :: t =>
      if m_prog m =? p then
        let* r := find_dev devs (fun d => isChannelSuitable d inc) (upto 6 (8 - 1)) in
        match r with Some i => wret (Some i) | None => square_loop devs m inc t end
      else square_loop devs m inc t
  end.
Definition findFreePsgChannelForSquareWaveVoices (s : midi) (inc : Z) : wres (option Z) :=
  let* m := wget (md_ch s) inc in square_loop (md_dev s) m inc [80; 89; 99].

(** midi.c:233-242 *)
Definition findAnyFreeChannel (devs : list dev) (inc lo hi : Z) : wres (option Z) :=
  find_dev devs (fun d => isChannelSuitable d inc) (upto lo (hi - 1)).

(** midi.c:381-387 *)
Definition deviceChannelByMidiChannel (devs : list dev) (mc : Z) : wres (option Z) :=
  find_dev devs (fun d => d_midi d =? mc) (upto 0 (DEV_CHANS - 1)).

(** midi.c:244-272 *)
Definition findDeviceSpecificChannel (s : midi) (inc lo hi : Z) : wres (option Z) :=
  let search (lo hi : Z) : wres (option Z) :=
    let* r := find_dev (md_dev s) (fun d => isChannelSuitable d inc) (upto lo hi) in
    match r with
    | Some i => wret (Some i)
    | None => find_dev (md_dev s)
                (fun d => (d_midi d =? inc) && negb (isPsgAndIncomingChanIsPercussive d inc)) (upto lo hi)
    end in
  if md_stick s then
    let* a := deviceChannelByMidiChannel (md_dev s) inc in
    match a with
    | None => wret None
    | Some i =>
        let* d := wget (md_dev s) i in
        if vt_eqb (d_ops d) VFm then search 0 5 else search 6 8
    end
  else search lo hi.

(** midi.c:274-290 *)
Definition device_min_max (sel : Z) : Z * Z :=
  if sel =? 0 then (0, 8) else if sel =? 1 then (0, 5) else if sel =? 2 then (6, 8) else (9, 9).

(** midi.c:292-322, 399-402 *)
Definition findFreeChannel (s : midi) (inc : Z) : wres (option Z) :=
  let* m := wget (md_ch s) inc in
  let (lo, hi) := device_min_max (m_sel m) in
  let* r := findFreeMidiAssignedChannel (md_dev s) inc lo hi in
  match r with
  | Some i => wret (Some i)
  | None =>
      if negb (md_dyn s) then deviceChannelByMidiChannel (md_dev s) inc
      else
        let* r := findFreePsgChannelForSquareWaveVoices s inc in
        match r with
        | Some i => wret (Some i)
        | None =>
            let* r := findDeviceSpecificChannel s inc lo hi in
            match r with
            | Some i => wret (Some i)
            | None => findAnyFreeChannel (md_dev s) inc lo hi
            end
        end
  end.

(** midi.c:324-342: true as soon as the counter reaches 2. *)
Fixpoint perc_loop (l : list dev) (counter : Z) : bool :=
  match l with
  | [] => false
  | d :: t =>
      if d_midi d =? PERCUSSION then
        let counter := if d_on d then counter + 1 else counter in
        if 2 <=? counter then true else perc_loop t counter
      else perc_loop t counter
  end.
Definition tooManyPercussiveNotes (s : midi) (midiChan : Z) : bool :=
  if negb (midiChan =? PERCUSSION) then false else perc_loop (md_dev s) 0.

(** midi.c:473-482 *)
Fixpoint voice_count (mc : Z) (playing : bool) (l : list dev) : Z :=
  match l with
  | [] => 0
  | d :: t =>
      (if (d_midi d =? mc) && negb (playing && negb (d_on d)) then 1 else 0) + voice_count mc playing t
  end.
Definition is_single_voice_channel (s : midi) (mc : Z) (playing : bool) : bool :=
  voice_count mc playing (md_dev s) =? 1.

(** ** Notes *)
(** midi.c:510-516 *)
Definition dev_chan_note_on (chs : list mchan) (d : dev) (pitch velocity : Z) : wres dev :=
  let d := d_set_on d true in
  let d := d_set_cents d 0 in
  let d := d_set_pitch d pitch in
  let* _ := set_downstream_note_on chs d velocity in wret d.

(** midi.c:518-523 *)
Definition dev_chan_note_off (d : dev) (pitch : Z) : wres dev :=
  let d := d_set_on d false in
  let d := d_set_pitch d 0 in
  let* _ := wemit (DNoteOff (d_ops d) (d_num d) pitch) in wret d.

(** midi.c:493-507: the loop; [h] is handledRetrigger, [st] the note stack. *)
Fixpoint note_off_loop (chs : list mchan) (mc pitch next : Z) (single : bool) (m : mchan)
    (h : bool) (st : npstack) (l : list dev) : wres (npstack * list dev) :=
  match l with
  | [] => wret (st, [])
  | d :: t =>
      if (d_midi d =? mc) && isChannelPlayingNote d pitch then
        if negb h && single && negb (next =? 0) then
          let* (st, d') :=
            (if m_porta m then
               let* (_, st) := of_np (note_priority_push next) st in wret (st, d_set_glide d next)
             else let* d' := dev_chan_note_on chs d next (m_vel m) in wret (st, d')) in
          let* (st, t') := note_off_loop chs mc pitch next single m true st t in
          wret (st, d' :: t')
        else
          let* d' := dev_chan_note_off d pitch in
          let* (st, t') := note_off_loop chs mc pitch next single m h st t in
          wret (st, d' :: t')
      else
        let* (st, t') := note_off_loop chs mc pitch next single m h st t in
        wret (st, d :: t')
  end.

(** midi.c:484-508 *)
Definition midi_note_off (chan pitch : Z) (s : midi) : wres midi :=
  let* m := wget (md_ch s) chan in
  let* (_, st) := of_np (note_priority_remove pitch) (m_np m) in
  let* (next, st) := of_np note_priority_pop st in
  let single := is_single_voice_channel s chan true in
  let* (st, devs) := note_off_loop (md_ch s) chan pitch next single m false st (md_dev s) in
  wret (md_set_dev (md_set_ch s (zset (md_ch s) chan (m_set_np m st))) devs).

(** midi.c:424-431 *)
Definition reapply_program (chs : list mchan) (d : dev) (midiChan : Z) : wres unit :=
  if (d_midi d =? PERCUSSION) && negb (midiChan =? PERCUSSION) then
    let* m := wget chs midiChan in wemit (DProgram (d_ops d) (d_num d) (m_prog m))
  else wret tt.

(** midi.c:464-470, for device channel number [i]. *)
Definition start_note (s : midi) (i midiChan pitch velocity : Z) (d : dev) : wres midi :=
  let* _ := reapply_program (md_ch s) d midiChan in
  let d := d_set_midi d midiChan in
  let d := d_set_on d true in
  let d := d_set_cents d 0 in
  let d := d_set_pitch d pitch in
  let* d := update_from_midi (md_ch s) d in
  let* _ := set_downstream_note_on (md_ch s) d velocity in
  wret (md_set_dev s (zset (md_dev s) i d)).

(** midi.c:433-471 *)
Definition midi_note_on (midiChan pitch velocity : Z) (s : midi) : wres midi :=
  if velocity =? 0 then midi_note_off midiChan pitch s
  else if tooManyPercussiveNotes s midiChan then wret s
  else
    let* r := findFreeChannel s midiChan in
    match r with
    | None => wret s
    | Some i =>
        let* d := wget (md_dev s) i in
        let* m := wget (md_ch s) midiChan in
        if is_single_voice_channel s midiChan false then
          if note_priority_isFull (m_np m) then wret s
          else
            let* (_, st) := of_np (note_priority_push pitch) (m_np m) in
            let m := m_set_vel (m_set_np m st) velocity in
            let s := md_set_ch s (zset (md_ch s) midiChan m) in
            if m_porta m && (1 <? note_priority_count (m_np m)) then
              wret (md_set_dev s (zset (md_dev s) i (d_set_glide d pitch)))
            else start_note s i midiChan pitch velocity (d_set_glide d 0)
        else start_note s i midiChan pitch velocity d
    end.

(** ** Controllers *)
(** Rewriting one MIDI channel, [MidiChannel* chan = &midiChannels[ch]]. *)
Definition on_ch (ch : Z) (f : mchan -> mchan) (s : midi) : wres midi :=
  let* m := wget (md_ch s) ch in wret (md_set_ch s (zset (md_ch s) ch (f m))).

(** midi.c:525-531 *)
Definition channel_pan (ch pan : Z) (s : midi) : wres midi :=
  let* m := wget (md_ch s) ch in
  let m := m_set_pan m pan in
  let s := md_set_ch s (zset (md_ch s) ch m) in
  let* devs := for_with (m_num m) (update_pan m) (md_dev s) in wret (md_set_dev s devs).

(** midi.c:533-539 *)
Definition channel_volume (ch volume : Z) (s : midi) : wres midi :=
  let* m := wget (md_ch s) ch in
  let m := m_set_vol m volume in
  let s := md_set_ch s (zset (md_ch s) ch m) in
  let* devs := for_with (m_num m) (update_volume m) (md_dev s) in wret (md_set_dev s devs).

(** midi.c:979-989 *)
Definition set_dynamic_mode (mode : Z) (s : midi) : midi :=
  let s := md_set_pref s mode in
  if mode =? 1 then apply_dynamic_mode (md_set_dyn s true)
  else if mode =? 0 then apply_dynamic_mode (md_set_dyn s false)
  else s.

(** midi.c:541-551 *)
Definition resetAllControllers (ch : Z) (s : midi) : wres midi :=
  let* _ := wget (md_ch s) ch in
  let s := md_set_ch s (zset (md_ch s) ch (init_midi_channel ch)) in
  let* devs := init_devices (md_ch s) (fun d => d_midi d =? ch) 0 (md_dev s) in
  let s := md_set_dev s devs in
  wret (set_dynamic_mode (b2z (md_dyn s)) s).

(** midi.c:919-958 *)
Definition midi_remap_channel (midiChan devChan : Z) (s : midi) : wres midi :=
  if negb (midiChan =? UNASSIGNED) && (MIDI_CHANNELS <=? midiChan) then wret s
  else if devChan =? 0x7F then
    let* r := deviceChannelByMidiChannel (md_dev s) midiChan in
    match r with
    | None => wret s
    | Some i =>
        let* d := wget (md_dev s) i in wret (md_set_dev s (zset (md_dev s) i (d_set_midi d UNASSIGNED)))
    end
  else if DEV_CHANS <=? devChan then wret s
  else
    let* d := wget (md_dev s) devChan in
    wret (md_set_dev s (zset (md_dev s) devChan (d_set_midi d midiChan))).

(** midi.c:562-564 *)
Fixpoint remap_all (is : list Z) (s : midi) : wres midi :=
  match is with
  | [] => wret s
  | i :: t => let* s := midi_remap_channel 0 i s in remap_all t s
  end.
(** midi.c:558-566 *)
Definition set_polyphonic_mode (enable : bool) (s : midi) : wres midi :=
  let s := set_dynamic_mode (b2z enable) s in
  if enable then remap_all (upto 0 5) s else wret s.

(** midi.c:568-577 *)
Definition midi_pitch_bend (chan bend : Z) (s : midi) : wres midi :=
  let* m := wget (md_ch s) chan in
  let m := m_set_bend m bend in
  let s := md_set_ch s (zset (md_ch s) chan m) in
  let* devs := for_with chan (fun d => if d_on d then update_pitch_bend (md_ch s) m d else wret d) (md_dev s) in
  wret (md_set_dev s devs).

(** The callback, midi.c:587-594, 1298-1306. *)
Definition notify_change (s : midi) (kind chan key value : Z) : wres unit :=
  if md_cb s then wemit (DChange kind chan key value) else wret tt.

(** midi.c:579-595 *)
Definition midi_program (chan program : Z) (s : midi) : wres midi :=
  let* m := wget (md_ch s) chan in
  let m := m_set_prog m program in
  let s := md_set_ch s (zset (md_ch s) chan m) in
  let* devs := for_with chan (update_program m) (md_dev s) in
  let s := md_set_dev s devs in
  let* _ := notify_change s 1 chan 0 program in wret s.

(** midi.c:607-614 *)
Definition all_notes_off (ch : Z) (s : midi) : wres midi :=
  let* devs := for_with ch (fun d =>
      let d := d_set_on d false in
      let d := d_set_pitch d 0 in
      let* _ := wemit (DAllOff (d_ops d) (d_num d)) in wret d) (md_dev s) in
  wret (md_set_dev s devs).

(** midi.c:962-964 *)
Fixpoint all_channels_off (is : list Z) (s : midi) : wres midi :=
  match is with
  | [] => wret s
  | i :: t => let* s := all_notes_off i s in all_channels_off t s
  end.
(** midi.c:960-969 *)
Definition general_midi_reset (s : midi) : wres midi :=
  let* s := all_channels_off (zseq 0 16) s in
  let s := if md_pref s =? 2 then md_set_dyn s true else s in
  reset_channels s.

(** midi.c:1001-1005 *)
Definition enable_dac (enable : bool) (s : midi) : wres midi :=
  let* d := wget (md_dev s) 5 in
  let s := md_set_dev s (zset (md_dev s) 5 (d_set_ops d (if enable then VDac else VFm))) in
  let* _ := wemit (DSynth (SDac enable)) in wret s.

(** midi.c:991-999 *)
Definition total_level_value (s : midi) (value : Z) : Z := if md_inv s then u8 (127 - value) else value.

(** midi.c:1007-1150: the synth.c call a controller makes for device channel
    number [num]; [None] for the DAC controller and for unknown ones. *)
Definition fm_parameter (s : midi) (num controller value : Z) : option sop :=
  let op base := controller - base in
  let in4 base := (base <=? controller) && (controller <=? base + 3) in
  if controller =? 14 then Some (SAlgorithm num (RANGE value 8))
  else if controller =? 15 then Some (SFeedback num (RANGE value 8))
  else if in4 16 then Some (STotalLevel num (op 16) (total_level_value s value))
  else if in4 20 then Some (SMultiple num (op 20) (RANGE value 16))
  else if in4 24 then Some (SDetune num (op 24) (RANGE value 8))
  else if in4 39 then Some (SRateScaling num (op 39) (RANGE value 4))
  else if in4 43 then Some (SAttackRate num (op 43) (RANGE value 32))
  else if in4 47 then Some (SDecayRate num (op 47) (RANGE value 32))
  else if in4 51 then Some (SSustainRate num (op 51) (RANGE value 16))
  else if in4 55 then Some (SSustainLevel num (op 55) (RANGE value 16))
  else if in4 59 then Some (SReleaseRate num (op 59) (RANGE value 16))
  else if in4 70 then Some (SAmpMod num (op 70) (RANGE value 2))
  else if in4 90 then Some (SSsgEg num (op 90) (RANGE value 16))
  else if controller =? 74 then Some (SEnableLfo (RANGE value 2))
  else if controller =? 1 then Some (SLfoFrequency (RANGE value 8))
  else if controller =? 76 then Some (SAms num (RANGE value 4))
  else if controller =? 75 then Some (SFms num (RANGE value 8))
  else if controller =? 77 then Some (SStereo num (RANGE value 4))
  else None.
Definition set_fm_chan_parameter (num controller value : Z) (s : midi) : wres midi :=
  if controller =? 78 then
    if md_nogm s then wret s else enable_dac (negb (RANGE value 2 =? 0)) s
  else
    match fm_parameter s num controller value with
    | None => wret s
    | Some op => if md_nogm s then wret s else let* _ := wemit (DSynth op) in wret s
    end.

(** midi.c:1157-1162 *)
Fixpoint fm_parameter_loop (chan controller value : Z) (is : list Z) (s : midi) : wres midi :=
  match is with
  | [] => wret s
  | i :: t =>
      let* d := wget (md_dev s) i in
      let* s := (if d_midi d =? chan then set_fm_chan_parameter (d_num d) controller value s else wret s) in
      fm_parameter_loop chan controller value t s
  end.
Definition fm_parameter_cc (chan controller value : Z) (s : midi) : wres midi :=
  fm_parameter_loop chan controller value (zseq 0 13) s.

(** midi.c:1179-1191: the range fields are u8 and s8 (pitchcents.h:4-7). *)
Definition update_pb_range (ch value : Z) (is_msb : bool) (s : midi) : wres midi :=
  let* m := wget (md_ch s) ch in
  let m := m_set_range m (if is_msb then mkPc value (pc_cents (m_range m))
                          else mkPc (pc_pitch (m_range m)) (s8 value)) in
  let s := md_set_ch s (zset (md_ch s) ch m) in
  let* devs := for_with (m_num m) (fun d =>
      if negb (d_bend d =? BEND_CENTRE) then let* _ := set_downstream_pitch (md_ch s) d in wret d
      else wret d) (md_dev s) in
  wret (md_set_dev s devs).

(** midi.c:1193-1200 *)
Definition update_rpn (value : Z) (is_msb : bool) (m : mchan) : mchan :=
  m_set_rpn m (if is_msb then u16 (Z.lor (Z.shiftl value 7) (Z.land (m_rpn m) 0x7F))
               else u16 (Z.lor (Z.land (m_rpn m) 0xFF80) (Z.land value 0x7F))).

(** midi.c:1202-1216 *)
Definition rpn_data_entry (ch value : Z) (is_msb : bool) (s : midi) : wres midi :=
  let* m := wget (md_ch s) ch in
  if m_rpn m =? 0 then update_pb_range ch value is_msb s else wret s.

(** midi.c:1218-1227 *)
Fixpoint store_from_loop (ch program : Z) (l : list dev) : wres unit :=
  match l with
  | [] => wret tt
  | d :: t =>
      if (d_midi d =? ch) && vt_eqb (d_ops d) VFm then wemit (DStoreFrom (d_num d) program)
      else store_from_loop ch program t
  end.

(** midi.c:1231-1296 *)
Definition cc_action (ch controller value : Z) (s : midi) : wres midi :=
  let* _ := wget (md_ch s) ch in
  if controller =? 5 then
    let* t := wget portaTimeToInterval value in on_ch ch (fun m => m_set_int m t) s
  else if controller =? 7 then channel_volume ch value s
  else if controller =? 10 then channel_pan ch value s
  else if (controller =? 123) || (controller =? 120) then all_notes_off ch s
  else if controller =? 84 then set_polyphonic_mode (negb (RANGE value 2 =? 0)) s
  else if controller =? 80 then
    let* _ := wemit (DSynth (SSpecialMode (negb (RANGE value 2 =? 0)))) in wret s
  else if controller =? 121 then resetAllControllers ch s
  else if controller =? 83 then
    if md_nogm s then wret s else let* _ := wemit (DUi ch (negb (RANGE value 2 =? 0))) in wret s
  else if controller =? 86 then
    if md_nogm s then wret s else on_ch ch (fun m => m_set_sel m (RANGE value 4)) s
  else if controller =? 65 then on_ch ch (fun m => m_set_porta m (negb (RANGE value 2 =? 0))) s
  else if controller =? 85 then
    if md_nogm s then wret s else on_ch ch (fun m => m_set_fine m (s8 (value - 64))) s
  else if controller =? 6 then rpn_data_entry ch value true s
  else if controller =? 38 then rpn_data_entry ch value false s
  else if controller =? 101 then on_ch ch (update_rpn value true) s
  else if controller =? 100 then on_ch ch (update_rpn value false) s
  else if (controller =? 11) || (controller =? 64) || (controller =? 98) || (controller =? 99) then wret s
  else if controller =? 87 then let* _ := store_from_loop ch value (md_dev s) in wret s
  else fm_parameter_cc ch controller value s.

(** midi.c:1229-1307 *)
Definition midi_cc (ch controller value : Z) (s : midi) : wres midi :=
  let* s := cc_action ch controller value s in
  let* _ := notify_change s 2 ch controller value in wret s.

(** ** System exclusive.  [data] is the message without F0 and F7; a read past
    its end is a read of uninitialised memory (the buffer of midi_rx.c:204). *)
Definition wdata (data : list Z) (i : Z) : wres Z :=
  match zget data i with Some x => wret x | None => WFault F_uninit end.

(** midi.c:630-632 *)
Fixpoint envelope_bytes (data : list Z) : wres (list Z) :=
  match data with
  | [] => wret []
  | [_] => WFault F_uninit
  | a :: b :: t => let* r := envelope_bytes t in wret (u8 (Z.lor (Z.shiftl a 4) b) :: r)
  end.
(** midi.c:626-636; the local buffer has 256 bytes. *)
Definition load_psg_envelope (data : list Z) (s : midi) : wres midi :=
  let* bs := envelope_bytes data in
  if 256 <=? Z.of_nat (length bs) then WFault F_oob
  else let* _ := wemit (DEnv (bs ++ [0xFF])) in wret s.

(** midi.c:644-650, 721-729 *)
Definition direct_write (part : Z) (data : list Z) (s : midi) : wres midi :=
  if negb (Z.of_nat (length data) =? 4) then wret s
  else
    let* a := wdata data 0 in let* b := wdata data 1 in let* c := wdata data 2 in let* d := wdata data 3 in
    let* _ := wemit (DSynth (SDirect part (u8 (Z.lor (Z.shiftl a 4) b)) (u8 (Z.lor (Z.shiftl c 4) d)))) in
    wret s.

(** midi.c:665-675; the fields are bit-fields (synth.h:14-26). *)
Definition store_operator (data : list Z) (i : Z) : wres operator :=
  let* a := wdata data (6 + i * 11) in let* b := wdata data (7 + i * 11) in
  let* c := wdata data (8 + i * 11) in let* d := wdata data (9 + i * 11) in
  let* e := wdata data (10 + i * 11) in let* f := wdata data (11 + i * 11) in
  let* g := wdata data (12 + i * 11) in let* h := wdata data (13 + i * 11) in
  let* j := wdata data (14 + i * 11) in let* k := wdata data (15 + i * 11) in
  let* l := wdata data (16 + i * 11) in
  wret (mkOp (bits 4 a) (bits 3 b) (bits 5 c) (bits 2 d) (bits 5 e) (bits 1 f) (bits 4 g) (bits 5 h)
             (bits 4 j) (bits 7 k) (bits 4 l)).
(** midi.c:652-685 (bit-field widths: synth.h:39-45) *)
Definition store_program (data : list Z) (s : midi) : wres midi :=
  let* type := wdata data 0 in
  let* program := wdata data 1 in
  if type =? 0 then
    let* a := wdata data 2 in let* f := wdata data 3 in let* am := wdata data 4 in let* fm := wdata data 5 in
    let* o0 := store_operator data 0 in let* o1 := store_operator data 1 in
    let* o2 := store_operator data 2 in let* o3 := store_operator data 3 in
    let* _ := wemit (DStore program (mkPreset (bits 3 a) (bits 3 f) (bits 2 am) (bits 3 fm) [o0; o1; o2; o3])) in
    wret s
  else wret s.

(** midi.c:687-701 *)
Definition clear_program (data : list Z) (s : midi) : wres midi :=
  let* type := wdata data 0 in
  let* program := wdata data 1 in
  if type =? 0 then let* _ := wemit (DClear program) in wret s else wret s.

(** midi.c:703-719 *)
Fixpoint clear_all_loop (is : list Z) : wres unit :=
  match is with [] => wret tt | i :: t => let* _ := wemit (DClear i) in clear_all_loop t end.
Definition clear_all_programs (data : list Z) (s : midi) : wres midi :=
  let* type := wdata data 0 in
  if type =? 0 then let* _ := clear_all_loop (zseq 0 128) in wret s else wret s.

(** midi.c:776-802 *)
Definition dump_channel_request (data : list Z) (s : midi) : wres midi :=
  let* type := wdata data 0 in
  let* midiChannel := wdata data 1 in
  if MIDI_CHANNELS <=? midiChannel then wret s
  else if type =? 0 then
    let* r := deviceChannelByMidiChannel (md_dev s) midiChannel in
    match r with
    | None => wret s
    | Some i =>
        let* d := wget (md_dev s) i in
        if negb (vt_eqb (d_ops d) VFm) then wret s
        else let* _ := wemit (DDumpChan midiChannel (d_num d)) in wret s
    end
  else wret s.

(** midi.c:804-824 *)
Definition dump_preset_request (data : list Z) (s : midi) : wres midi :=
  let* type := wdata data 0 in
  let* program := wdata data 1 in
  if type =? 0 then let* _ := wemit (DDumpPreset program) in wret s else wret s.

(** midi.c:891-917 *)
Definition send_pong (data : list Z) (s : midi) : wres midi :=
  let head := [0x00; 0x22; 0x77; 0x02] in
  let* first := (match data with [] => wret [] | a :: _ => wret [a] end) in
  let* rest := (if 3 <=? Z.of_nat (length data) then
                  let* v := wdata data 1 in if v =? 1 then wret (skipn 2 data) else wret []
                else wret []) in
  let* _ := wemit (DTx (head ++ first ++ rest)) in wret s.

(** midi.c:833-851 with the length test of 883-886: handler of a command.
    [None]: no such command or no handler. *)
Definition fixed_length (n : Z) (h : list Z -> midi -> wres midi) (data : list Z) (s : midi) : wres midi :=
  if negb (Z.of_nat (length data) =? n) then wret s else h data s.
Definition sysex_handler (command : Z) : option (list Z -> midi -> wres midi) :=
  match command with
  | 0x00 => Some (fixed_length 2 (fun data s =>
              let* a := wdata data 0 in let* b := wdata data 1 in midi_remap_channel a b s))
  | 0x01 => Some send_pong
  | 0x03 => Some (fixed_length 1 (fun data s =>
              let* a := wdata data 0 in wret (set_dynamic_mode (b2z (negb (a =? 0))) s)))
  | 0x04 => Some (fixed_length 1 (fun data s => let* a := wdata data 0 in wret (md_set_nogm s (a =? 0))))
  | 0x05 => Some (fixed_length 1 (fun data s => let* a := wdata data 0 in wret (md_set_stick s (negb (a =? 0)))))
  | 0x06 => Some load_psg_envelope
  | 0x07 => Some (fixed_length 1 (fun data s => let* a := wdata data 0 in wret (md_set_inv s (negb (a =? 0)))))
  | 0x08 => Some (fixed_length 4 (direct_write 0))
  | 0x09 => Some (fixed_length 4 (direct_write 1))
  | 0x0A => Some (fixed_length 50 store_program)
  | 0x0B => Some (fixed_length 2 clear_program)
  | 0x0C => Some (fixed_length 1 clear_all_programs)
  | 0x0D => Some (fixed_length 2 dump_preset_request)
  | 0x0F => Some (fixed_length 2 dump_channel_request)
  | _ => None
  end.

(** memcmp(...) == 0 on a prefix, utils.c:18-28 *)
Fixpoint has_prefix (p data : list Z) : bool :=
  match p, data with
  | [], _ => true
  | x :: p', y :: d' => (y =? x) && has_prefix p' d'
  | _ :: _, [] => false
  end.

(** midi.c:853-889 *)
Definition midi_sysex (data : list Z) (s : midi) : wres midi :=
  if Z.of_nat (length data) <? 4 then wret s
  else if has_prefix [0x7E; 0x7F; 0x09; 0x01] data then general_midi_reset s
  else if negb (has_prefix [0x00; 0x22; 0x77] data) then wret s
  else
    let* command := wdata data 3 in
    match sysex_handler command with
    | None => wret s
    | Some h => h (skipn 4 data) s
    end.

(** ** Frame tick *)
(** midi.c:1314-1343 *)
Definition process_channel_glide (chs : list mchan) (porta : Z) (d : dev) : wres dev :=
  if (d_glide d =? 0) || ((d_glide d =? d_pitch d) && (d_cents d =? 0)) then wret d
  else
    let inc :=
      if d_pitch d <? d_glide d then s16 porta
      else if (d_glide d <? d_pitch d) || ((d_glide d =? d_pitch d) && (0 <? d_cents d)) then s16 (0 - porta)
      else 0 in
    let pc := pc_shift (mkPc (d_pitch d) (d_cents d)) inc in
    let d :=
      if ((0 <? inc) && (d_glide d <=? pc_pitch pc)) || ((inc <? 0) && (pc_pitch pc <=? d_glide d)) then
        d_set_glide (d_set_cents (d_set_pitch d (u8 (d_glide d))) 0) 0
      else d_set_cents (d_set_pitch d (pc_pitch pc)) (pc_cents pc) in
    let* _ := set_downstream_pitch chs d in wret d.

(** midi.c:1345-1356 *)
Fixpoint process_portamento (chs : list mchan) (l : list dev) : wres (list dev) :=
  match l with
  | [] => wret []
  | d :: t =>
      let* d' :=
        (if d_midi d =? UNASSIGNED then wret d
         else let* m := wget chs (d_midi d) in
              if m_porta m && d_on d then process_channel_glide chs (m_int m) d else wret d) in
      let* t' := process_portamento chs t in
      wret (d' :: t')
  end.

(** midi.c:1358-1361 *)
Definition midi_tick (s : midi) : wres midi :=
  let* devs := process_portamento (md_ch s) (md_dev s) in wret (md_set_dev s devs).

(** ** Histories *)
Inductive mop : Type :=
| MNoteOn (c p v : Z) | MNoteOff (c p : Z) | MCc (c k v : Z) | MProgram (c p : Z) | MBend (c b : Z)
| MSysex (data : list Z) | MReset | MTick | MCallback (b : bool).

Definition midi_step (op : mop) (s : midi) : wres midi :=
  match op with
  | MNoteOn c p v => midi_note_on c p v s
  | MNoteOff c p => midi_note_off c p s
  | MCc c k v => midi_cc c k v s
  | MProgram c p => midi_program c p s
  | MBend c b => midi_pitch_bend c b s
  | MSysex data => midi_sysex data s
  | MReset => reset s                         (* midi.c:1309-1312 *)
  | MTick => midi_tick s
  | MCallback b => wret (md_set_cb s b)       (* midi.c:1363-1366 *)
  end.

Fixpoint midi_run (ops : list mop) (s : midi) : wres midi :=
  match ops with
  | [] => wret s
  | op :: t => let* s := midi_step op s in midi_run t s
  end.

(** Zero-initialised statics. *)
Definition dev0 : dev := mkDev 0 VFm false 0 0 0 0 0 0 0 0.   (* ops is NULL until midi_init sets it *)
Definition mchan0 : mchan := mkMc 0 0 0 0 0 (mkPc 0 0) 0 (mkNp (repeat 0 10) 0) 0 false 0 0 0.
Definition midi0 : midi := mkMidi (repeat dev0 13) (repeat mchan0 16) false 0 false false false false.

(** Power-on, then a history. *)
Definition midi_boot (ops : list mop) : wres midi := let* s := midi_init midi0 in midi_run ops s.
