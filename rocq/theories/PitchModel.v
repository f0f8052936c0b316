(** Models of pitchcents.c and of the pure frequency arithmetic of midi_fm.c
    and midi_psg.c. *)
From Verif Require Import Base.

(** PitchCents, pitchcents.h:4-7: u8 pitch, s8 cents. *)
Record pitchcents := mkPc { pc_pitch : Z; pc_cents : Z }.

(** pc_shift, pitchcents.c:11-15. [totalCents] is a u16. *)
Definition pc_shift (pc : pitchcents) (centsAdd : Z) : pitchcents :=
  let totalCents := u16 (pc_pitch pc * 100 + pc_cents pc + centsAdd) in
  mkPc (u8 (totalCents / 100)) (s8 (totalCents mod 100)).

(** pc_bend, pitchcents.c:4-9; MIDI_PITCH_BEND_CENTRE = 0x2000 (midi.h:10). *)
Definition pc_bend (pitch cents pitchBend : Z) (range : pitchcents) : pitchcents :=
  let centsRange := s16 (pc_pitch range * 100 + pc_cents range) in
  let centsAdd := s16 (Z.quot ((pitchBend - 8192) * centsRange) 8192) in
  pc_shift (mkPc pitch cents) centsAdd.

(** FREQS_NTSC, FREQS_PAL, midi_fm.c:9-17 *)
Definition FREQS_NTSC : list Z :=
  [607; 644; 681; 722; 765; 810; 858; 910; 964; 1021; 1081; 1146; 1214].
Definition FREQS_PAL : list Z :=
  [613; 649; 688; 729; 772; 818; 867; 918; 973; 1031; 1092; 1157; 1226].

Definition MIN_MIDI_PITCH := 11.   (* midi_fm.h: B-1 *)
Definition MAX_MIDI_PITCH := 106.

(** lookup_freq_num, midi_fm.c:166-170. The result is an option: [None] would
    be an out-of-bounds read. *)
Definition lookup_freq_num (pal : bool) (pitch offset : Z) : option Z :=
  zget (if pal then FREQS_PAL else FREQS_NTSC)
       (Z.rem (u8 (pitch - MIN_MIDI_PITCH)) 12 + offset).

(** midi_fm_pitch_cents_to_freq_num, midi_fm.c:77-82 *)
Definition pitch_cents_to_freq_num (pal : bool) (pitch cents : Z) : option Z :=
  match lookup_freq_num pal pitch 0, lookup_freq_num pal pitch 1 with
  | Some freq, Some nextFreq => Some (u16 (freq + Z.quot ((nextFreq - freq) * cents) 100))
  | _, _ => None
  end.

(** midi_fm_pitch_to_octave, midi_fm.c:161-164 *)
Definition pitch_to_octave (pitch : Z) : Z := u8 (Z.quot (pitch - MIN_MIDI_PITCH) 12).

(** pitch_is_out_of_range, midi_fm.c:172-175 *)
Definition fm_pitch_out_of_range (pitch : Z) : bool :=
  (pitch <? MIN_MIDI_PITCH) || (MAX_MIDI_PITCH <? pitch).

(** TONES_NTSC, TONES_PAL, midi_psg.c:15-25 *)
Definition TONES_NTSC : list Z := [1016; 959; 905; 855; 807; 761; 719; 678; 640; 604; 570;
    538; 508; 479; 452; 427; 403; 380; 359; 339; 320; 302; 285; 269; 254; 239; 226; 213; 201; 190;
    179; 169; 160; 151; 142; 134; 127; 119; 113; 106; 100; 95; 89; 84; 80; 75; 71; 67; 63; 59; 56;
    53; 50; 47; 44; 42; 40; 37; 35; 33; 31; 29; 28; 26; 25; 23; 22; 21; 20; 18; 17; 16; 15; 14; 14;
    13; 12; 11; 11; 10; 10; 9; 8].
Definition TONES_PAL : list Z := [1007; 951; 897; 847; 799; 754; 712; 672; 634; 599; 565;
    533; 503; 475; 448; 423; 399; 377; 356; 336; 317; 299; 282; 266; 251; 237; 224; 211; 199; 188;
    178; 168; 158; 149; 141; 133; 125; 118; 112; 105; 99; 94; 89; 84; 79; 74; 70; 66; 62; 59; 56;
    52; 49; 47; 44; 42; 39; 37; 35; 33; 31; 29; 28; 26; 24; 23; 22; 21; 19; 18; 17; 16; 15; 14; 14;
    13; 12; 11; 11; 10; 9; 9; 8].

(** tone_for_midi_key, midi_psg.c:296-306; MIN_MIDI_KEY 45, MAX_MIDI_KEY 127,
    NUM_TONES 83 (midi_psg.c:11-13). The argument is a u8. *)
Definition tone_for_midi_key (pal : bool) (key : Z) : option Z :=
  let tones := if pal then TONES_PAL else TONES_NTSC in
  if key <? 45 then zget tones 0
  else if 127 <? key then zget tones 82
  else zget tones (key - 45).

(** tone_from_pitch_cents, midi_psg.c:110-117. [pc.pitch + 1] is passed to a u8
    parameter. *)
Definition tone_from_pitch_cents (pal : bool) (pc : pitchcents) : option Z :=
  match tone_for_midi_key pal (pc_pitch pc) with
  | None => None
  | Some tone =>
      if pc_cents pc =? 0 then Some tone
      else match tone_for_midi_key pal (u8 (pc_pitch pc + 1)) with
           | None => None
           | Some next => Some (u16 (tone + Z.quot ((next - tone) * pc_cents pc) 100))
           end
  end.
