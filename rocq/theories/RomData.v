(** Transcription (by script) of the ROM tables of src/presets.c and
    src/pcm_sample.c. *)
From Verif Require Import Base SynthModel.

Local Notation op := mkOp.
Local Notation pr a f m s o0 o1 o2 o3 := (mkPreset a f m s [o0; o1; o2; o3]).

(** M_BANK_0, presets.c:516-568, with the presets it names (presets.c:4-514),
    in the order of the table: algorithm, feedback, AMS, FMS, then per operator
    multiple, detune, attack rate, rate scaling, decay rate, amplitude
    modulation, sustain level, sustain rate, release rate, total level, SSG-EG. *)
Definition M_BANK_0 : list preset := [
  (* 4 INST_0_GRANDPIANO *) pr 2 0 0 0 (op 1 0 26 1 7 0 7 4 1 39 0) (op 2 7 31 3 23 0 9 15 1 4 0) (op 4 6 24 1 9 0 6 9 7 36 0) (op 1 3 27 2 4 0 10 4 6 2 0);
  (* 8 INST_1_BRIGHTPIANO *) pr 5 7 0 0 (op 4 2 27 1 9 0 11 5 6 33 0) (op 1 2 27 1 5 1 10 5 6 8 0) (op 4 5 27 1 9 0 7 9 7 18 0) (op 6 5 27 1 9 0 3 8 7 9 0);
  (* 12 INST_2_ELECTRICPIANO_ANIMATICS *) pr 4 0 0 0 (op 1 7 24 1 5 0 6 6 4 33 0) (op 1 0 25 2 5 0 1 4 5 6 0) (op 2 4 22 1 7 0 6 6 4 26 0) (op 1 3 25 2 4 1 6 4 5 9 0);
  (* 16 INST_3_HONKYTONK_SONICMODDED *) pr 5 1 0 0 (op 2 3 31 0 10 0 15 5 7 35 0) (op 4 0 25 0 7 0 13 0 7 7 0) (op 2 0 25 0 6 0 2 6 7 14 0) (op 1 3 25 0 9 0 2 0 7 16 0);
  (* 20 INST_4_RHODESPIANO *) pr 4 6 0 0 (op 12 4 31 1 7 0 11 0 8 57 0) (op 1 0 31 2 4 1 1 4 8 9 0) (op 1 4 22 2 5 0 11 0 8 34 0) (op 1 0 31 2 4 1 6 4 8 9 0);
  (* 24 INST_5_CHORUSPIANOTINITOON *) pr 7 6 0 0 (op 10 7 31 0 10 0 15 7 6 30 0) (op 2 3 31 0 13 0 15 0 8 12 0) (op 1 5 25 1 5 0 15 2 6 10 0) (op 1 1 25 0 10 0 15 2 6 20 0);
  (* 28 INST_6_HARPSICHORD_ADAMS *) pr 1 7 0 0 (op 6 1 31 2 0 1 0 1 5 38 0) (op 10 3 31 3 0 0 0 1 6 33 0) (op 0 5 31 3 0 1 0 0 2 35 0) (op 0 7 31 0 6 0 4 6 7 6 0);
  (* 32 INST_7_CLAVINET *) pr 1 7 0 0 (op 1 1 31 2 0 1 0 1 6 28 0) (op 1 3 31 2 0 0 0 1 7 33 0) (op 1 5 31 3 0 1 0 0 2 30 0) (op 1 7 31 0 6 0 4 6 7 6 0);
  (* 36 INST_8_CELESTA *) pr 0 0 3 0 (op 3 1 19 1 1 0 4 27 0 8 0) (op 1 7 27 1 7 0 0 26 6 17 0) (op 11 3 29 0 15 0 15 31 8 34 0) (op 1 7 31 0 0 0 0 9 6 11 0);
  (* 40 INST_9_GLOCKENSPIEL *) pr 4 1 3 0 (op 7 1 31 0 7 0 15 0 2 30 0) (op 1 7 31 2 7 0 15 0 3 0 0) (op 5 3 31 0 11 0 15 0 6 51 0) (op 1 7 31 2 7 0 15 0 3 15 0);
  (* 44 INST_10_MUSICBOX *) pr 4 1 3 0 (op 7 1 15 0 14 0 15 0 7 30 0) (op 1 7 31 0 12 0 15 0 6 0 0) (op 10 3 15 0 14 0 15 0 5 51 0) (op 0 7 31 0 12 0 15 0 6 15 0);
  (* 48 INST_11_VIBRAPHONE_NINEKO *) pr 6 7 2 0 (op 8 3 25 1 15 0 10 6 6 40 0) (op 1 0 25 1 6 1 10 5 6 4 0) (op 10 7 31 1 16 0 6 6 6 35 0) (op 4 3 28 2 10 0 6 5 5 4 0);
  (* 52 INST_12_MARIMBA_ALADDIN *) pr 4 0 0 0 (op 5 4 31 0 19 1 7 7 14 27 0) (op 1 3 30 0 15 0 15 7 7 0 0) (op 2 2 31 2 18 1 8 4 2 40 0) (op 1 0 31 0 15 0 15 2 7 11 0);
  (* 56 INST_13_XYLAPHONE_ALADDIN *) pr 0 0 0 0 (op 0 7 0 1 29 1 9 31 15 0 0) (op 0 7 31 1 0 1 0 24 15 0 0) (op 3 6 29 1 15 0 15 31 15 31 0) (op 0 7 31 0 0 0 0 12 6 0 0);
  (* 60 INST_14_TUBULARBELLS_ANIMATICS *) pr 4 5 0 0 (op 7 7 22 0 5 0 15 30 4 30 0) (op 2 3 24 0 3 0 12 31 4 8 0) (op 7 3 22 0 6 0 8 30 4 30 0) (op 2 7 19 0 2 0 9 31 4 8 0);
  (* 64 INST_15_DULCIMER *) pr 6 2 0 0 (op 3 0 15 1 11 0 15 6 5 23 0) (op 1 0 24 2 8 0 15 0 5 3 0) (op 10 0 19 1 14 0 4 6 6 44 0) (op 1 0 22 2 8 0 15 0 3 9 0);
  (* 68 INST_16_HAMMOND_NINEKO *) pr 7 4 0 0 (op 4 1 28 1 0 0 15 4 10 17 0) (op 0 3 28 1 0 0 15 27 8 23 0) (op 1 5 28 1 0 0 15 4 8 15 0) (op 2 6 28 1 0 0 15 4 10 23 0);
  (* 72 INST_17_PERCUSIVEORGAIN_ACTION52 *) pr 4 0 3 2 (op 14 0 27 0 23 0 11 11 8 21 0) (op 6 0 20 0 9 0 2 0 8 7 0) (op 1 1 21 0 28 0 2 5 15 17 0) (op 1 0 23 0 1 0 10 31 15 11 0);
  (* 76 INST_18_ROCKORGAN *) pr 4 4 1 4 (op 3 1 20 1 12 1 2 0 10 25 0) (op 1 0 20 2 0 0 0 0 10 7 0) (op 1 0 20 2 0 1 0 0 10 24 0) (op 2 5 20 2 0 0 0 0 10 10 0);
  (* 80 INST_19_CHURCHORGAN *) pr 6 2 0 0 (op 3 1 20 2 10 0 2 0 3 27 0) (op 1 0 14 0 10 0 1 0 6 9 0) (op 4 0 19 0 10 0 2 0 9 6 0) (op 0 0 12 0 10 0 1 0 6 4 0);
  (* 84 INST_20_REEDORGAN *) pr 4 6 1 0 (op 1 1 24 2 16 0 1 0 7 25 0) (op 1 0 16 0 0 0 0 0 8 7 0) (op 1 0 25 0 0 0 0 0 6 21 0) (op 2 0 13 2 0 1 0 0 8 7 0);
  (* 88 INST_21_ACCORDEON *) pr 2 6 0 2 (op 1 3 21 0 5 0 1 0 7 30 0) (op 7 3 18 0 8 0 2 0 8 21 0) (op 2 7 14 0 9 0 2 3 9 52 0) (op 2 0 13 2 22 0 1 0 9 0 0);
  (* 92 INST_22_HARMONICA_SONIC *) pr 0 7 0 0 (op 10 3 20 3 5 0 9 0 9 45 0) (op 10 0 20 0 8 0 0 0 9 40 0) (op 1 1 16 1 2 0 0 0 9 39 0) (op 2 0 16 0 8 1 1 0 10 0 0);
  (* 96 INST_23_TANGO_ACCORDION *) pr 4 6 1 0 (op 3 1 15 0 4 0 1 0 10 25 0) (op 1 0 13 2 4 0 2 0 10 7 0) (op 3 0 14 0 4 0 1 0 10 26 0) (op 2 5 14 2 4 0 2 0 10 8 0);
  (* 100 INST_24_NYLONGUITARHELLROLL *) pr 0 3 0 0 (op 5 0 31 0 18 0 2 0 7 48 0) (op 0 3 31 0 10 0 2 4 7 19 0) (op 1 3 31 0 14 0 2 4 7 45 0) (op 0 0 31 1 10 0 2 3 7 0 0);
  (* 104 INST_25_STEELGUITARHELLROLL *) pr 0 3 0 0 (op 5 0 31 0 18 0 2 0 7 32 0) (op 0 3 31 0 10 0 2 4 7 19 0) (op 1 3 31 0 14 0 2 4 7 45 0) (op 0 0 31 1 10 0 2 3 7 0 0);
  (* 108 INST_26_JAZZGUITAR *) pr 0 5 0 0 (op 2 0 31 1 4 0 15 0 7 30 0) (op 3 3 31 1 4 0 15 0 7 43 0) (op 1 3 31 2 4 0 15 0 7 42 0) (op 1 0 31 0 4 0 15 0 7 0 0);
  (* 112 INST_27_CLEANGUITAR_COLUMNS_III *) pr 0 7 0 0 (op 8 5 31 1 7 0 15 0 6 39 0) (op 3 3 31 1 10 0 15 0 9 29 0) (op 3 5 31 1 4 0 15 0 8 34 0) (op 1 3 31 1 31 0 1 4 7 0 0);
  (* 116 INST_28_MUTEDGUITAR_ALADDIN *) pr 2 3 0 4 (op 3 3 20 1 23 0 8 9 10 28 0) (op 4 0 24 1 23 0 11 1 11 11 0) (op 1 3 27 1 27 0 8 7 11 5 0) (op 1 0 20 0 18 0 0 4 12 0 0);
  (* 120 INST_29_OVERDRIVE_OPL3 *) pr 0 0 0 4 (op 3 0 31 2 12 0 8 0 12 36 0) (op 2 0 18 2 1 0 13 0 10 25 0) (op 1 2 19 1 1 0 11 0 8 32 0) (op 2 0 17 2 1 0 4 0 7 0 0);
  (* 124 INST_30_DISTORTION_OPL3 *) pr 0 0 0 4 (op 3 0 31 2 12 0 8 0 12 36 0) (op 2 0 18 2 1 0 15 0 7 25 0) (op 1 2 19 1 2 0 11 0 8 26 0) (op 2 0 17 2 1 0 4 0 6 0 0);
  (* 128 INST_31_GUITAR_HARMONICSHELLFIRE *) pr 3 6 0 5 (op 10 0 16 2 6 0 15 8 12 28 0) (op 8 7 21 2 6 0 8 7 1 13 0) (op 2 3 31 2 3 0 15 0 6 20 0) (op 1 1 16 0 2 0 15 15 7 0 0);
  (* 132 INST_32_ACOUSTICBASS_SONIC *) pr 2 7 0 0 (op 0 2 30 0 10 0 10 5 4 33 0) (op 3 2 31 0 10 0 8 7 5 37 0) (op 0 6 31 0 8 0 9 10 6 40 0) (op 1 0 31 0 7 0 7 7 8 0 0);
  (* 136 INST_33_FINGERBASS_SONIC *) pr 0 1 0 0 (op 9 0 31 0 18 0 2 0 15 37 0) (op 0 7 31 0 14 0 2 4 15 48 0) (op 0 3 31 1 10 0 2 4 15 19 0) (op 0 0 31 1 10 0 2 3 15 0 0);
  (* 140 INST_34_PICKBASS *) pr 0 1 0 0 (op 9 0 31 0 21 0 8 0 15 30 0) (op 0 7 31 0 14 0 3 4 15 49 0) (op 0 3 31 1 13 0 2 4 15 14 0) (op 0 0 31 1 10 0 2 3 15 0 0);
  (* 144 INST_35_FRETLESSBASSALADDIN *) pr 6 0 0 4 (op 0 0 26 0 9 0 0 7 11 29 0) (op 0 0 13 1 3 0 6 0 10 5 0) (op 0 5 18 2 11 0 14 19 10 0 0) (op 0 6 10 1 12 0 15 0 10 9 0);
  (* 148 INST_36_SLAPBASS1 *) pr 0 4 0 0 (op 15 3 31 2 14 0 2 8 7 19 0) (op 3 0 31 2 15 0 2 8 7 56 0) (op 0 0 31 1 13 0 2 8 7 24 0) (op 1 0 31 1 7 0 1 8 7 0 0);
  (* 152 INST_37_SLAPBASS2 *) pr 0 4 0 0 (op 15 3 31 2 14 0 2 6 7 14 0) (op 3 0 31 2 15 0 2 8 7 56 0) (op 0 0 31 1 13 0 2 8 7 24 0) (op 1 0 31 1 7 0 1 8 7 0 0);
  (* 156 INST_38_SYNBASS1_DYNABROS *) pr 5 7 0 0 (op 4 4 21 1 30 0 0 13 11 23 0) (op 4 1 25 1 30 0 0 10 10 0 0) (op 2 0 20 1 30 0 0 9 9 5 0) (op 3 3 20 1 30 0 8 5 9 24 0);
  (* 160 INST_39_SYNBASS2_NINEKO *) pr 0 4 0 0 (op 6 3 31 3 7 0 2 7 0 25 0) (op 5 3 31 3 6 0 1 6 6 55 0) (op 0 3 31 2 9 0 1 6 7 19 0) (op 1 3 31 2 6 0 15 8 6 0 0);
  (* 164 INST_40_VIOLIN *) pr 2 7 2 3 (op 1 3 15 0 4 0 1 0 5 30 0) (op 7 3 13 0 16 0 0 0 4 31 0) (op 0 7 12 0 9 0 0 3 7 49 0) (op 2 0 11 2 10 0 1 0 5 3 0);
  (* 168 INST_41_VIOLA *) pr 2 7 2 3 (op 1 3 14 0 4 0 1 0 5 30 0) (op 4 3 14 0 16 0 0 0 4 30 0) (op 0 7 11 0 9 0 0 3 7 61 0) (op 2 0 12 2 10 0 1 0 5 3 0);
  (* 172 INST_42_CELLO *) pr 2 7 2 3 (op 1 3 16 0 4 0 1 0 5 40 0) (op 5 3 14 1 16 0 0 0 4 30 0) (op 0 7 14 0 9 0 0 3 8 47 0) (op 2 0 14 2 10 0 1 0 6 3 0);
  (* 176 INST_43_CONTROLBASS *) pr 2 7 2 3 (op 1 3 16 0 4 0 1 0 5 43 0) (op 4 3 14 0 16 0 0 0 4 44 0) (op 0 7 14 0 9 0 0 3 7 31 0) (op 2 0 14 2 10 0 1 0 5 0 0);
  (* 180 INST_44_TREMOLOSTRINGS *) pr 4 7 2 5 (op 1 3 16 3 1 1 1 0 3 21 0) (op 1 0 15 0 10 0 2 0 7 6 0) (op 1 0 13 2 11 0 4 0 4 19 0) (op 1 0 14 0 10 0 1 0 8 0 0);
  (* 184 INST_45_PIZZIKATOSTRINGS *) pr 5 6 0 0 (op 4 1 19 3 19 0 10 11 7 0 0) (op 1 1 16 0 19 0 15 23 7 8 0) (op 2 1 19 1 15 0 15 24 7 5 0) (op 1 1 18 1 14 0 12 14 7 12 0);
  (* 188 INST_46_ORCHESTRALHARP *) pr 4 0 0 0 (op 2 0 31 0 10 0 1 0 4 27 0) (op 1 1 31 0 14 0 6 5 4 0 0) (op 1 5 31 1 10 0 7 2 4 127 0) (op 0 5 14 1 11 0 15 2 4 127 0);
  (* 192 INST_47_TIMPANY *) pr 4 1 0 0 (op 0 0 20 1 15 0 15 0 7 10 0) (op 1 0 31 0 11 0 15 0 6 0 0) (op 1 0 31 0 14 0 15 0 10 0 0) (op 2 0 15 0 13 0 15 0 14 71 0);
  (* 196 INST_48_STRINGESSEMBLE1 *) pr 4 7 1 3 (op 1 3 14 3 11 0 0 0 4 29 0) (op 5 0 14 0 10 1 2 0 8 6 0) (op 1 0 14 2 10 1 1 0 5 28 0) (op 1 0 15 0 10 0 1 0 8 0 0);
  (* 200 INST_49_STRINGESSEMBLE2 *) pr 4 7 1 1 (op 1 3 11 3 11 0 0 0 1 29 0) (op 1 0 10 0 8 0 2 0 6 6 0) (op 1 0 11 2 10 1 1 0 1 28 0) (op 1 0 10 0 8 0 1 0 6 3 0);
  (* 204 INST_50_SYNSTRINGS_1 *) pr 4 6 0 0 (op 1 1 26 0 2 1 6 0 2 21 0) (op 1 0 10 0 0 0 0 0 6 24 0) (op 1 3 25 0 1 1 11 0 3 28 0) (op 1 0 10 0 0 0 0 0 5 2 0);
  (* 208 INST_51_SYNSTRING2_ALADDIN *) pr 2 6 1 5 (op 0 3 8 0 4 0 0 0 5 35 0) (op 4 3 8 2 3 0 10 0 4 52 0) (op 0 0 15 0 1 0 7 3 3 32 0) (op 0 0 8 1 10 1 0 0 5 0 0);
  (* 212 INST_52_CHOIR_AAHS *) pr 4 0 0 4 (op 0 3 17 1 0 1 5 0 1 42 0) (op 0 3 13 1 0 1 0 0 5 8 0) (op 0 7 13 2 0 0 5 0 1 30 0) (op 0 7 11 2 0 1 0 0 5 8 0);
  (* 216 INST_53_VOICE *) pr 4 6 2 3 (op 5 7 20 0 10 0 1 3 7 0 0) (op 3 0 21 1 10 0 6 2 7 37 0) (op 1 3 19 2 13 1 2 5 8 14 0) (op 1 0 15 1 4 0 1 0 8 0 0);
  (* 220 INST_54_SYNTHVOICE *) pr 0 4 0 4 (op 10 3 12 1 0 1 5 0 1 76 0) (op 7 3 14 1 0 1 0 0 5 51 0) (op 0 7 12 2 0 0 5 0 1 46 0) (op 0 7 11 2 0 1 0 0 5 0 0);
  (* 224 INST_55_ORCHESTRAHIT *) pr 0 7 0 0 (op 0 0 16 1 13 0 15 0 5 19 0) (op 1 0 22 0 9 0 15 0 3 17 0) (op 1 0 18 0 5 0 15 0 2 21 0) (op 2 0 18 1 10 0 15 0 5 0 0);
  (* 228 INST_56_TRUMPET_SONIC *) pr 5 7 0 0 (op 2 0 16 2 14 0 1 1 4 27 0) (op 4 0 16 0 11 0 15 0 13 10 0) (op 2 0 19 0 14 0 1 0 9 21 0) (op 2 0 20 0 13 0 0 0 14 9 0);
  (* 232 INST_57_TROMBONE_ALADDIN *) pr 5 5 2 3 (op 0 0 12 2 13 0 2 1 10 26 0) (op 0 0 23 2 7 1 1 2 10 9 0) (op 0 0 10 2 8 0 2 0 10 18 0) (op 1 5 23 2 7 1 1 0 10 3 0);
  (* 236 INST_58_TUBA_ALADDIN *) pr 5 7 1 2 (op 0 0 14 2 6 0 6 1 6 27 0) (op 0 0 14 2 7 1 1 2 5 4 0) (op 1 0 13 2 13 0 2 10 5 3 0) (op 1 5 17 2 7 1 1 0 6 5 0);
  (* 240 INST_59_MUTEDTRUMPET_SONIC *) pr 5 7 0 0 (op 2 1 15 2 14 0 1 1 3 21 0) (op 2 0 13 0 11 0 15 0 13 31 0) (op 2 0 15 0 14 0 1 0 8 74 0) (op 2 0 15 0 13 0 0 0 14 0 0);
  (* 244 INST_60_FRENCHHORN *) pr 4 7 0 0 (op 1 0 11 2 4 0 3 0 7 34 0) (op 1 0 20 2 0 0 0 0 6 0 0) (op 0 0 0 0 0 0 0 0 0 127 0) (op 0 0 0 0 0 0 0 0 0 127 0);
  (* 248 INST_61_BRASSSECTION_GREENDOG *) pr 5 6 1 2 (op 1 2 14 2 0 0 4 1 7 26 0) (op 1 3 27 2 5 0 3 2 6 0 0) (op 0 2 21 2 0 0 1 2 7 9 0) (op 4 1 20 2 0 1 0 2 8 6 0);
  (* 252 INST_62_SYNBRASS1 *) pr 2 6 0 2 (op 1 0 22 0 6 0 15 0 6 20 0) (op 1 3 31 0 0 0 0 0 13 28 0) (op 1 7 31 0 0 0 0 0 12 42 0) (op 1 0 19 0 0 0 0 0 8 0 0);
  (* 256 INST_63_SYNBRASS2 *) pr 2 7 2 3 (op 1 3 17 0 4 0 1 0 9 30 0) (op 7 3 17 0 16 0 0 0 9 31 0) (op 2 7 17 0 9 0 0 3 9 55 0) (op 2 0 17 2 10 0 1 0 7 0 0);
  (* 260 INST_64_SOPRANOSAX *) pr 5 6 1 2 (op 1 2 17 1 0 0 4 1 8 32 0) (op 2 3 12 1 5 0 3 2 7 13 0) (op 0 2 13 1 0 0 1 2 8 14 0) (op 2 1 14 2 0 1 0 2 9 0 0);
  (* 264 INST_65_ALTOSAX *) pr 5 6 1 2 (op 1 2 14 2 0 0 4 1 8 26 0) (op 1 3 12 2 5 0 3 2 7 5 0) (op 0 2 19 1 0 0 1 2 8 11 0) (op 4 1 14 2 0 1 0 2 8 4 0);
  (* 268 INST_66_TENORSAX *) pr 5 6 1 2 (op 1 2 15 2 0 0 4 1 8 30 0) (op 1 3 11 2 5 0 3 2 6 5 0) (op 0 2 18 1 0 0 1 2 7 10 0) (op 2 1 13 2 0 1 0 2 8 4 0);
  (* 272 INST_67_BARITONESAX *) pr 5 6 1 2 (op 1 2 14 2 0 0 4 1 8 23 0) (op 1 3 14 2 5 0 3 2 6 5 0) (op 0 2 17 2 0 0 1 2 7 10 0) (op 3 1 17 2 0 1 0 2 8 4 0);
  (* 276 INST_68_OBOE_ALADDIN *) pr 0 7 1 2 (op 1 0 24 0 23 1 0 0 10 39 0) (op 1 0 16 0 31 1 0 0 10 30 0) (op 1 0 22 0 31 0 0 0 10 40 0) (op 4 0 24 0 31 0 0 0 10 0 0);
  (* 280 INST_69_ENGLISHHORN *) pr 0 7 1 2 (op 1 0 24 0 23 1 0 0 10 38 0) (op 1 0 16 0 31 1 0 0 10 23 0) (op 1 0 22 0 31 0 0 0 10 43 0) (op 2 0 16 0 31 0 0 0 8 5 0);
  (* 284 INST_70_BASSOON_ALADDIN *) pr 0 7 1 2 (op 0 0 3 0 23 1 0 0 12 39 0) (op 1 0 15 0 31 1 0 0 12 35 0) (op 0 0 31 0 31 0 0 0 12 36 0) (op 2 0 16 0 31 0 0 0 12 0 0);
  (* 288 INST_71_CLARINET_ALADDIN *) pr 4 1 2 3 (op 2 1 13 2 0 0 0 1 10 30 0) (op 1 7 18 0 0 0 0 0 10 4 0) (op 2 7 15 1 11 1 8 29 10 18 0) (op 1 1 19 0 15 1 2 6 10 12 0);
  (* 292 INST_72_PICCOLO_ALADDIN *) pr 7 2 3 2 (op 2 3 10 3 0 0 0 0 8 9 0) (op 2 7 10 2 8 0 7 0 8 6 0) (op 2 3 12 2 12 1 12 10 8 17 0) (op 2 1 10 3 13 1 7 0 8 11 0);
  (* 296 INST_73_FLUTE *) pr 4 6 1 0 (op 5 7 20 0 10 0 1 3 5 0 0) (op 3 0 22 1 12 0 6 2 8 49 0) (op 1 3 19 2 13 1 4 0 5 22 0) (op 1 0 14 1 4 1 1 0 8 0 0);
  (* 300 INST_74_RECORDER *) pr 3 7 0 0 (op 1 7 20 1 14 0 6 3 5 8 0) (op 2 0 20 1 16 0 5 2 5 55 0) (op 2 3 13 2 4 0 2 0 5 36 0) (op 2 0 14 1 4 1 0 0 8 0 0);
  (* 304 INST_75_PANFLUTE *) pr 4 6 0 0 (op 5 7 19 0 10 0 1 0 5 0 0) (op 3 0 22 1 12 0 1 0 5 49 0) (op 2 3 18 2 13 0 4 0 5 19 0) (op 1 0 14 1 4 1 1 0 8 0 0);
  (* 308 INST_76_BOTTLEBLOW *) pr 4 7 0 0 (op 5 7 18 0 10 0 1 0 6 0 0) (op 3 0 25 1 13 0 3 0 6 41 0) (op 2 3 12 2 13 1 5 0 6 24 0) (op 1 0 12 1 4 1 2 0 7 0 0);
  (* 312 INST_77_SHAKUHACHI_ALISIA_DRAGOON *) pr 4 5 0 0 (op 4 3 18 0 6 0 2 2 7 32 0) (op 2 7 15 0 9 0 7 0 8 6 0) (op 4 5 18 0 6 0 2 2 6 35 0) (op 2 3 14 0 10 1 2 0 9 11 0);
  (* 316 INST_78_WHISTLE_ALADDIN *) pr 7 2 1 3 (op 1 3 18 0 0 1 0 0 8 8 0) (op 1 0 15 2 2 0 7 0 8 8 0) (op 1 3 0 2 0 0 4 0 8 127 0) (op 2 1 0 3 0 0 0 0 8 127 0);
  (* 320 INST_79_OCARINA *) pr 4 6 0 0 (op 5 7 20 0 10 0 1 3 5 0 0) (op 3 0 22 1 12 0 6 2 8 49 0) (op 2 3 20 2 13 0 4 0 5 41 0) (op 1 0 14 1 4 1 1 0 7 0 0);
  (* 324 INST_80_LEADSQUARE *) pr 4 7 1 0 (op 2 3 31 1 0 1 8 1 11 24 0) (op 1 7 28 0 0 0 1 0 10 9 0) (op 2 0 26 0 0 1 2 0 10 26 0) (op 1 0 27 1 0 1 0 0 15 13 0);
  (* 328 INST_81_LEADSAW *) pr 4 7 0 0 (op 1 7 31 0 0 0 0 0 15 28 0) (op 2 7 31 0 0 0 0 0 15 4 0) (op 1 3 31 0 0 0 0 0 15 28 0) (op 2 3 31 0 0 0 0 0 15 4 0);
  (* 332 INST_82_LEADCALLIOPE *) pr 4 7 0 5 (op 5 7 19 0 10 1 1 0 5 0 0) (op 3 2 25 2 13 0 13 0 5 41 0) (op 2 3 13 2 13 0 5 0 5 24 0) (op 1 6 14 1 4 1 2 0 11 5 0);
  (* 336 INST_83_LEAD4CHIF_SONIC *) pr 2 7 0 0 (op 1 0 14 2 14 0 5 0 15 20 0) (op 7 0 15 2 14 0 5 8 15 43 0) (op 1 0 14 2 14 0 11 0 15 23 0) (op 1 0 20 1 3 0 11 8 15 4 0);
  (* 340 INST_84_LEAD5CHAR_NINEKO *) pr 0 7 0 0 (op 2 7 17 3 1 0 15 0 15 30 0) (op 3 1 18 1 7 0 15 0 15 30 0) (op 1 7 20 0 1 0 15 0 15 30 0) (op 1 1 20 0 1 0 15 0 15 4 0);
  (* 344 INST_85_LEADVOICE *) pr 4 1 2 3 (op 2 1 15 2 0 0 0 1 10 30 0) (op 1 7 21 0 0 0 0 0 10 4 0) (op 2 7 16 1 11 1 8 29 10 18 0) (op 1 1 19 0 15 1 2 6 10 12 0);
  (* 348 INST_86_LEAD7FIFTS_ANIMATICS *) pr 4 7 0 0 (op 4 3 27 1 5 0 0 3 7 24 0) (op 4 7 27 1 5 0 0 3 7 0 0) (op 3 7 24 1 0 0 0 3 6 14 0) (op 3 3 22 1 0 0 0 3 6 12 0);
  (* 352 INST_87_LEAD8BASS_GEMS_ANALOG_SOLO *) pr 4 0 0 1 (op 1 0 19 1 13 1 6 9 9 17 0) (op 2 7 30 0 5 1 4 0 8 6 0) (op 1 0 1 2 19 1 0 2 8 29 0) (op 1 6 31 0 7 0 0 0 8 4 0);
  (* 356 INST_88_PAD1NEWAGE *) pr 4 1 0 0 (op 7 0 15 0 11 0 7 6 6 25 0) (op 8 0 31 0 7 0 15 0 5 22 0) (op 1 3 9 2 2 0 2 0 3 33 0) (op 1 0 14 0 5 0 1 0 6 0 0);
  (* 360 INST_89_PAD_WARM_PORTED_FROM_DMX *) pr 7 0 0 0 (op 1 0 7 3 0 0 0 0 3 16 0) (op 1 0 5 0 0 0 0 0 6 16 0) (op 1 3 7 1 0 0 0 0 4 16 0) (op 1 3 5 0 0 0 0 0 6 16 0);
  (* 364 INST_90_POLYSYNTH *) pr 4 7 0 0 (op 1 3 18 1 8 0 1 4 6 26 0) (op 2 5 17 1 0 0 0 0 6 3 0) (op 0 5 21 1 8 0 1 4 5 22 0) (op 0 3 20 1 0 0 0 0 5 5 0);
  (* 368 INST_91_PADCHOIR *) pr 5 0 0 4 (op 0 0 14 1 0 1 5 0 2 34 0) (op 0 0 12 1 0 1 0 0 5 12 0) (op 0 0 10 2 0 0 5 0 3 17 0) (op 0 0 9 2 0 1 0 0 4 14 0);
  (* 372 INST_92_BOWED *) pr 4 3 0 0 (op 6 0 11 3 3 0 6 1 1 26 0) (op 1 0 9 2 6 0 7 2 3 6 0) (op 5 0 10 0 9 0 15 0 3 35 0) (op 2 0 10 0 6 0 15 0 4 29 0);
  (* 376 INST_93_METALLIC *) pr 4 7 1 4 (op 1 3 11 3 11 0 0 0 1 28 0) (op 9 0 7 0 3 0 10 0 5 14 0) (op 1 0 11 2 3 1 1 0 1 22 0) (op 2 0 7 0 1 0 14 0 5 11 0);
  (* 380 INST_94_PADHALO *) pr 4 5 0 4 (op 1 2 3 1 4 0 5 0 5 12 0) (op 1 0 9 0 7 1 3 0 6 3 0) (op 1 7 3 1 4 1 5 1 4 0 0) (op 1 0 10 0 7 0 3 0 6 22 0);
  (* 384 INST_95_SWEEP *) pr 4 5 0 5 (op 2 2 6 0 6 0 5 0 4 22 0) (op 1 0 15 0 7 1 3 0 6 3 0) (op 5 7 4 0 8 1 5 5 4 24 0) (op 2 0 9 0 7 0 3 0 6 19 0);
  (* 388 INST_96_FX_RAIN *) pr 6 7 2 2 (op 6 0 31 0 18 0 3 0 7 20 0) (op 2 0 31 0 18 1 2 13 5 21 0) (op 2 3 12 0 0 1 0 0 5 17 0) (op 1 7 12 0 0 1 0 0 5 17 0);
  (* 392 INST_97_FXSNDTRACK_THUNDERFORCE_IV *) pr 4 5 0 0 (op 3 3 6 0 6 0 15 4 4 30 0) (op 3 5 17 0 3 0 2 0 4 9 0) (op 2 5 5 0 6 0 15 4 5 30 0) (op 2 3 10 0 3 0 2 0 5 9 0);
  (* 396 INST_98_FXCRYSTAL_ALISIA_DRAGOON *) pr 4 7 0 0 (op 5 4 31 0 13 0 7 4 6 55 0) (op 2 7 31 0 8 0 6 7 8 12 0) (op 4 0 26 0 19 0 2 7 6 43 0) (op 2 3 24 0 8 0 2 7 5 15 0);
  (* 400 INST_99_ATMOSPHERE_ALISIA_DRAGOON *) pr 4 6 1 3 (op 2 7 22 2 1 1 5 0 5 23 0) (op 1 3 31 2 4 0 4 0 5 5 0) (op 1 1 22 0 4 1 0 5 6 49 0) (op 1 5 13 0 9 0 5 6 6 16 0);
  (* 404 INST_100_BRIGHTNESS *) pr 3 0 0 0 (op 2 3 18 2 1 1 5 4 1 40 0) (op 3 5 31 1 0 0 0 0 6 43 0) (op 5 5 20 1 8 0 1 4 4 39 0) (op 2 3 31 1 0 0 0 0 5 6 0);
  (* 408 INST_101_GOBLINS *) pr 4 5 0 4 (op 1 2 4 0 6 0 5 0 3 18 0) (op 1 0 3 1 7 1 3 0 3 19 0) (op 1 7 4 0 1 1 0 1 3 0 0) (op 1 0 5 0 7 0 3 0 3 22 0);
  (* 412 INST_102_ECHOS *) pr 4 2 0 4 (op 2 3 16 1 0 1 5 0 5 41 0) (op 2 0 16 1 0 1 0 0 5 12 0) (op 1 0 11 2 0 0 5 0 5 45 0) (op 1 7 20 2 0 1 0 0 5 16 0);
  (* 416 INST_103_SCIFI *) pr 0 3 0 4 (op 1 3 20 2 2 0 2 0 3 34 0) (op 8 6 31 2 2 0 2 0 3 36 0) (op 3 2 31 2 3 0 4 0 3 34 0) (op 1 0 19 0 1 1 2 0 5 8 0);
  (* 420 INST_104_SITAR *) pr 4 0 0 0 (op 2 0 31 1 7 0 4 5 4 47 0) (op 7 0 19 2 3 0 15 0 6 25 0) (op 2 0 18 2 3 0 15 0 3 8 0) (op 7 0 31 0 5 0 15 0 6 14 0);
  (* 424 INST_105_BANJO *) pr 2 6 0 0 (op 6 3 15 1 20 0 1 8 9 25 0) (op 1 2 31 1 15 0 1 23 8 69 0) (op 2 5 28 1 9 0 1 1 0 23 0) (op 2 3 19 0 25 0 1 9 7 0 0);
  (* 428 INST_106_SHAMISEN *) pr 0 7 0 0 (op 5 0 31 2 14 0 15 0 8 27 0) (op 2 0 31 2 14 0 14 0 2 34 0) (op 1 0 31 1 5 0 14 0 4 24 0) (op 6 0 31 1 7 0 15 0 5 10 0);
  (* 432 INST_107_KOTO *) pr 4 4 0 3 (op 3 5 27 2 8 0 3 4 3 23 0) (op 1 0 24 1 22 0 2 4 3 7 0) (op 3 1 27 2 8 1 3 8 2 28 0) (op 3 0 24 0 22 0 1 8 5 14 0);
  (* 436 INST_108_KALIMBA *) pr 6 6 0 0 (op 4 7 20 1 22 1 7 21 7 23 0) (op 1 7 21 0 0 1 0 10 6 7 0) (op 4 6 30 1 13 0 5 7 5 21 0) (op 4 7 21 0 12 0 4 9 6 19 0);
  (* 440 INST_109_BAGPIPE *) pr 0 3 1 0 (op 1 0 16 2 16 0 3 0 6 11 0) (op 4 0 12 0 0 0 0 0 13 39 0) (op 0 0 17 0 0 0 3 0 5 28 0) (op 2 0 12 2 0 0 0 0 13 8 0);
  (* 444 INST_110_FIDDLE *) pr 2 7 2 3 (op 1 3 14 0 4 0 1 0 5 29 0) (op 7 3 12 0 16 0 0 0 4 31 0) (op 0 7 11 0 9 0 0 3 7 55 0) (op 2 0 10 2 10 0 1 0 5 3 0);
  (* 448 INST_111_SHANAI_ALADDIN *) pr 0 7 1 2 (op 1 0 24 0 23 1 0 0 10 39 0) (op 1 0 16 0 31 1 0 0 10 30 0) (op 1 0 22 0 31 0 0 0 10 40 0) (op 4 0 24 0 31 0 0 0 10 0 0);
  (* 452 INST_112_TINKLEBELL *) pr 7 0 0 0 (op 3 3 20 3 4 0 0 4 3 25 0) (op 2 7 22 3 3 0 5 8 3 16 0) (op 2 3 20 0 5 0 0 6 3 17 0) (op 3 7 22 2 7 0 11 7 3 11 0);
  (* 456 INST_113_AGOGO *) pr 4 7 0 0 (op 6 0 31 0 31 0 6 14 8 0 0) (op 14 0 31 2 14 0 10 14 7 14 0) (op 11 0 31 0 31 0 4 14 8 0 0) (op 14 0 31 2 31 0 0 15 7 14 0);
  (* 460 INST_114_STEELDRUMS *) pr 4 1 3 0 (op 12 1 13 0 19 0 5 0 7 65 0) (op 1 7 26 0 12 0 15 0 6 12 0) (op 5 3 13 0 16 0 8 7 7 34 0) (op 1 7 26 0 14 0 15 0 6 12 0);
  (* 464 INST_115_WOODBLOCK *) pr 4 7 0 0 (op 7 1 31 0 22 0 12 22 8 20 0) (op 5 1 31 0 18 0 11 28 8 0 0) (op 14 1 31 3 25 0 14 12 8 10 0) (op 9 1 31 3 20 0 1 13 8 5 0);
  (* 468 INST_116_TAIKO_DRUM *) pr 6 3 0 0 (op 0 0 31 2 18 0 0 18 8 6 0) (op 1 0 31 2 16 0 0 16 11 4 0) (op 0 0 31 0 16 0 0 16 7 12 0) (op 0 0 31 0 8 0 9 12 5 3 0);
  (* 472 INST_117_MELODIC_TOM *) pr 1 6 0 0 (op 2 0 31 0 0 0 0 13 0 16 0) (op 0 0 31 0 2 0 0 18 0 2 0) (op 0 0 30 0 0 0 0 20 0 35 0) (op 0 0 30 0 0 0 0 14 6 0 0);
  (* 476 INST_118_SYNDRUM_ALISIA_DRAGOON *) pr 3 7 0 0 (op 1 0 29 0 18 0 5 0 6 6 0) (op 1 0 31 0 26 0 2 22 6 8 0) (op 2 0 31 1 27 0 5 8 6 13 0) (op 1 0 31 0 14 0 12 17 6 0 0);
  (* 480 INST_119_REVERSE_CYMBELL *) pr 4 7 1 0 (op 15 7 29 0 1 0 8 0 0 0 0) (op 3 1 4 1 13 1 0 22 9 9 0) (op 15 7 31 0 0 0 1 0 4 0 0) (op 0 0 4 2 27 0 10 6 6 29 0);
  (* 484 INST_120_GUITAR_FRET_NOISE *) pr 4 7 1 0 (op 6 7 27 0 1 0 8 0 0 14 0) (op 3 1 14 1 7 1 0 14 9 17 0) (op 3 7 31 0 0 0 1 0 4 33 0) (op 4 0 12 2 14 0 10 9 6 32 0);
  (* 488 INST_121_BREATH_NOISE *) pr 4 7 0 0 (op 4 3 31 0 0 0 2 0 2 0 0) (op 2 7 12 0 12 0 11 7 7 11 0) (op 4 5 31 0 0 0 2 0 2 8 0) (op 2 3 12 0 9 1 7 9 6 24 0);
  (* 492 INST_122_SEASHORE *) pr 5 7 0 0 (op 3 3 31 0 0 0 15 0 0 0 0) (op 1 0 6 0 8 0 15 0 4 26 0) (op 1 0 6 0 8 0 15 0 4 22 0) (op 1 0 7 0 8 0 15 0 4 28 0);
  (* 496 INST_123_BIRDTWEET *) pr 7 3 0 0 (op 7 0 6 3 16 0 0 14 7 25 8) (op 8 0 8 3 14 0 5 16 6 16 8) (op 5 1 15 0 13 0 0 14 10 17 0) (op 6 0 11 2 14 0 11 16 6 0 0);
  (* 500 INST_124_TELEPHONE *) pr 4 7 0 0 (op 11 3 31 0 2 0 15 0 8 32 0) (op 13 3 16 1 17 0 15 0 5 0 14) (op 0 0 31 0 2 0 15 0 8 50 0) (op 6 0 22 0 19 0 15 0 6 0 14);
  (* 504 INST_125_HELICOPTER *) pr 4 6 3 0 (op 0 3 5 1 1 0 0 0 0 0 0) (op 2 0 7 0 2 1 1 0 5 20 0) (op 0 0 5 0 13 1 0 0 9 127 0) (op 0 0 7 0 15 1 0 0 4 127 0);
  (* 508 INST_126_APPLAUSE *) pr 5 7 0 0 (op 3 3 31 0 0 0 15 0 0 4 0) (op 1 1 6 0 7 0 0 0 8 23 0) (op 1 0 6 0 13 0 0 0 9 22 0) (op 1 0 6 0 15 0 0 0 4 21 0);
  (* 512 INST_127_GUNSHOT *) pr 5 7 0 5 (op 3 3 31 0 3 0 15 17 5 4 0) (op 1 0 31 0 15 0 15 31 8 0 0) (op 1 0 31 0 20 0 15 20 8 0 0) (op 1 0 31 0 15 0 15 16 11 0 0)].

(** P_BANK_0, presets.c:1360-1396, with the presets it names (presets.c:570-1358):
    preset and key. *)
Definition no_drum : preset * Z := (pr 0 0 0 0 (op 0 0 0 0 0 0 0 0 0 0 0) (op 0 0 0 0 0 0 0 0 0 0 0) (op 0 0 0 0 0 0 0 0 0 0 0) (op 0 0 0 0 0 0 0 0 0 0 0), 0).   (* unused entries are all zero *)
Definition P_BANK_0 : list (preset * Z) := [
  (* 570 *) no_drum;
  (* 576 *) no_drum;
  (* 582 *) no_drum;
  (* 588 *) no_drum;
  (* 594 *) no_drum;
  (* 600 *) no_drum;
  (* 606 *) no_drum;
  (* 612 *) no_drum;
  (* 618 *) no_drum;
  (* 624 *) no_drum;
  (* 630 *) no_drum;
  (* 636 *) no_drum;
  (* 642 *) no_drum;
  (* 648 *) no_drum;
  (* 654 *) no_drum;
  (* 660 *) no_drum;
  (* 666 *) no_drum;
  (* 672 *) no_drum;
  (* 678 *) no_drum;
  (* 684 *) no_drum;
  (* 690 *) no_drum;
  (* 696 *) no_drum;
  (* 702 *) no_drum;
  (* 708 *) no_drum;
  (* 714 *) no_drum;
  (* 720 *) no_drum;
  (* 726 *) no_drum;
  (* 732 INST_27 *) (pr 4 1 0 0 (op 0 0 18 0 0 0 0 29 12 0 0) (op 1 0 31 1 0 0 0 16 9 0 0) (op 0 0 18 0 0 0 0 29 12 0 0) (op 1 0 31 1 0 0 0 16 9 1 0), 30);
  (* 738 INST_28 *) (pr 5 7 0 5 (op 3 3 31 3 6 0 15 16 3 4 0) (op 1 0 31 2 16 0 15 31 8 0 0) (op 1 0 31 3 18 0 15 14 9 0 0) (op 1 0 31 2 16 0 7 14 6 0 0), 49);
  (* 744 INST_29 *) (pr 4 7 3 7 (op 0 0 31 0 11 0 0 10 6 8 0) (op 0 0 15 0 14 1 1 16 8 0 0) (op 0 0 0 0 0 1 0 0 0 127 0) (op 0 0 0 0 0 0 0 0 0 127 0), 59);
  (* 750 INST_30_CASTANETS *) (pr 4 3 0 0 (op 9 0 31 0 11 0 15 0 15 23 0) (op 4 0 31 2 20 0 15 0 15 13 0) (op 1 0 31 0 19 0 15 0 15 15 0) (op 2 0 31 2 20 0 15 0 15 13 0), 62);
  (* 757 INST_31_STICKS *) (pr 0 3 0 0 (op 2 0 31 0 20 0 15 0 15 10 0) (op 2 0 31 2 20 0 15 0 15 42 0) (op 2 0 31 0 18 0 15 0 15 23 0) (op 1 0 31 0 21 0 15 0 15 0 0), 54);
  (* 764 INST_32_SQUARE_CLICK *) (pr 7 3 0 0 (op 1 0 31 0 23 0 15 0 15 39 0) (op 1 0 31 2 23 0 15 0 15 39 0) (op 1 0 31 0 22 0 15 0 15 0 0) (op 1 0 18 0 24 0 15 0 15 0 0), 75);
  (* 771 INST_33_METRONOMECLICK *) (pr 0 3 0 0 (op 2 0 31 0 18 0 15 0 15 6 0) (op 2 0 31 2 22 0 15 0 15 33 0) (op 1 0 31 0 19 0 15 0 15 5 0) (op 1 0 31 0 21 0 15 0 15 0 0), 43);
  (* 778 INST_34 *) (pr 5 7 0 5 (op 3 3 31 3 6 0 15 16 3 4 0) (op 1 0 31 2 16 0 15 31 8 0 0) (op 1 0 31 3 18 0 15 14 9 0 0) (op 1 0 31 2 16 0 7 15 8 0 0), 46);
  (* 784 INST_35_BASSDRUM_ *) (pr 2 4 0 0 (op 0 0 27 0 0 0 0 20 7 0 0) (op 6 0 0 0 15 0 15 12 6 127 0) (op 5 0 0 0 11 0 15 15 5 127 0) (op 1 0 31 1 0 0 0 14 7 0 0), 35);
  (* 790 INST_36_BASSDRUM_ *) (pr 2 3 0 0 (op 0 0 26 0 0 0 0 20 7 0 0) (op 6 0 0 0 15 0 15 13 6 127 0) (op 5 0 0 0 11 0 15 15 4 127 0) (op 1 0 31 1 0 0 0 12 7 0 0), 35);
  (* 796 INST_37_STICKSIDE *) (pr 0 3 0 0 (op 2 0 31 0 19 0 15 0 15 21 0) (op 2 0 31 2 20 0 15 0 15 33 0) (op 1 0 31 0 19 0 15 0 15 14 0) (op 1 0 31 0 20 0 15 0 15 0 0), 44);
  (* 803 INST_38_ACUSTICSNARE_ACTION52 *) (pr 5 6 0 5 (op 3 3 31 3 6 0 15 16 3 4 0) (op 1 0 31 2 16 0 15 31 8 0 0) (op 1 0 31 3 18 0 15 14 9 0 0) (op 1 0 31 2 16 0 7 13 6 0 0), 39);
  (* 809 INST_39_HANDCLAP_OPL3 *) (pr 4 7 0 0 (op 15 0 31 2 0 0 0 0 5 13 0) (op 15 0 31 0 17 0 2 15 7 27 0) (op 0 0 31 0 20 0 0 16 8 3 0) (op 1 0 31 0 3 0 0 18 9 0 0), 58);
  (* 815 INST_40_ACUSTICSNARE_ACTION52 *) (pr 5 6 0 5 (op 3 3 31 3 5 0 15 15 3 4 0) (op 1 0 31 2 16 0 15 31 7 0 0) (op 1 0 31 3 20 0 15 14 9 0 0) (op 1 0 31 2 16 0 7 12 6 0 0), 39);
  (* 821 INST_41_LOW_FLOOR_TOM *) (pr 5 7 0 0 (op 1 3 30 0 26 0 15 3 6 21 0) (op 0 7 30 0 17 0 15 3 6 0 0) (op 3 1 30 1 12 0 15 1 6 3 0) (op 0 1 30 0 17 0 15 3 6 3 0), 20);
  (* 827 INST_42_CLOSED_HAT *) (pr 2 7 3 3 (op 15 3 31 0 14 1 8 13 4 25 0) (op 15 7 31 0 14 1 9 13 4 20 0) (op 3 3 31 1 10 0 6 8 4 0 0) (op 1 7 31 3 9 0 2 9 5 0 0), 70);
  (* 833 INST_43_HIGH_FLOOR_TOM *) (pr 5 7 0 0 (op 1 3 30 0 26 0 15 3 6 22 0) (op 0 7 30 0 17 0 15 14 6 0 0) (op 4 1 30 1 12 0 15 1 6 3 0) (op 0 1 30 0 17 0 15 9 6 3 0), 20);
  (* 839 INST_44_PEDALHIHAT *) (pr 0 7 0 0 (op 12 3 7 1 10 0 11 28 4 0 0) (op 10 7 3 3 10 1 11 16 7 0 0) (op 3 1 31 3 0 0 0 0 4 0 0) (op 5 7 4 3 13 0 5 29 9 7 0), 100);
  (* 845 INST_45_LOW_TOM *) (pr 5 7 0 0 (op 1 3 30 0 26 0 15 3 6 22 0) (op 0 7 30 0 17 0 15 3 6 0 0) (op 4 1 30 1 12 0 15 1 6 3 0) (op 0 1 30 0 17 0 15 3 6 3 0), 24);
  (* 851 INST_46_OPENHIHAT *) (pr 4 5 0 0 (op 9 0 31 0 14 0 1 0 0 0 0) (op 2 0 31 0 23 0 4 8 4 8 0) (op 0 0 0 0 0 0 0 0 0 127 0) (op 0 0 0 0 0 0 0 0 0 127 0), 69);
  (* 857 INST_47_LOWMED_TOM *) (pr 5 7 0 0 (op 0 3 30 0 26 0 15 3 6 22 0) (op 0 7 30 0 17 0 15 3 6 0 0) (op 4 1 30 1 12 0 15 1 6 3 0) (op 0 1 30 0 17 0 15 3 6 3 0), 29);
  (* 863 INST_48_HIGHMED_TOM *) (pr 5 7 0 0 (op 0 3 30 0 24 0 15 19 6 22 0) (op 0 7 30 0 17 0 15 3 6 0 0) (op 4 1 30 1 12 0 15 1 6 3 0) (op 0 1 30 0 17 0 15 3 6 3 0), 33);
  (* 869 INST_49_CRASH_ANIMATICS *) (pr 4 7 1 0 (op 15 7 31 0 11 0 4 0 0 0 0) (op 3 1 31 0 11 1 15 0 6 0 0) (op 1 7 31 0 22 0 3 7 4 0 0) (op 7 0 31 2 27 0 10 7 6 0 0), 68);
  (* 875 INST_50_HIGH_TOM_ *) (pr 5 7 0 0 (op 1 3 30 0 26 0 15 3 6 22 0) (op 0 7 30 0 17 0 15 3 6 0 0) (op 4 1 30 1 12 0 15 1 6 3 0) (op 0 1 30 0 17 0 15 3 6 3 0), 36);
  (* 881 INST_51_RIDECYMBELL1 *) (pr 4 5 0 0 (op 12 0 31 0 13 0 1 0 0 0 0) (op 3 0 24 0 21 0 4 7 4 12 0) (op 0 0 0 0 0 0 0 0 0 127 0) (op 0 0 0 0 0 0 0 0 0 127 0), 76);
  (* 887 INST_52_CHINESE_CRASH_ANIMATICS *) (pr 4 5 0 0 (op 15 7 31 0 7 0 5 0 2 0 0) (op 3 1 31 0 12 0 8 4 4 0 0) (op 1 7 31 0 21 0 3 6 3 0 0) (op 7 0 31 2 25 0 10 6 3 0 0), 65);
  (* 893 INST_53_RIDE_BELL *) (pr 4 3 0 0 (op 13 0 31 0 7 0 14 7 1 0 0) (op 13 0 31 0 10 0 14 18 5 17 0) (op 0 0 0 0 0 0 0 0 0 127 0) (op 0 0 0 0 0 0 0 0 0 127 0), 76);
  (* 899 INST_54_TAMBORINE *) (pr 1 7 3 5 (op 2 2 31 1 5 0 8 2 1 6 0) (op 4 0 31 2 5 0 5 2 3 1 0) (op 5 7 22 2 15 0 10 12 1 0 0) (op 14 3 18 2 13 0 10 13 6 8 0), 61);
  (* 906 INST_55_SPLASH_CRASH_ANIMATICS *) (pr 4 5 0 0 (op 15 7 31 0 5 0 5 6 0 0 0) (op 3 1 31 0 11 0 8 4 5 0 0) (op 1 7 31 0 21 0 3 6 3 0 0) (op 7 0 31 2 26 0 10 6 5 0 0), 84);
  (* 912 INST_56_COWBELL *) (pr 4 0 0 0 (op 2 0 31 0 18 0 13 17 8 16 0) (op 7 0 31 0 16 0 7 16 5 0 0) (op 0 0 0 0 0 0 0 0 0 127 0) (op 0 0 0 0 0 0 0 0 0 127 0), 64);
  (* 918 INST_57_CRASH_2_ANIMATICS *) (pr 4 5 0 0 (op 15 7 31 0 0 0 5 0 0 0 0) (op 3 1 31 0 10 0 8 4 4 0 0) (op 1 7 31 0 20 0 3 6 3 0 0) (op 7 0 31 2 25 0 10 6 4 0 0), 70);
  (* 924 INST_58_VIBESLAP *) (pr 4 6 0 0 (op 0 0 31 0 0 0 0 0 0 8 0) (op 0 0 31 0 10 0 15 0 5 0 0) (op 0 0 31 0 5 0 0 0 0 0 0) (op 0 0 31 0 10 0 15 0 5 21 0), 28);
  (* 930 INST_59_RIDECYMBELL2 *) (pr 4 5 0 0 (op 12 0 31 0 12 0 1 0 0 0 0) (op 3 0 24 0 20 0 4 8 4 11 0) (op 0 0 0 0 0 0 0 0 0 127 0) (op 0 0 0 0 0 0 0 0 0 127 0), 81);
  (* 936 INST_60_HIBO *) (pr 6 6 0 0 (op 1 0 28 2 15 0 15 0 9 5 0) (op 0 0 28 2 20 0 15 0 9 0 0) (op 2 7 23 0 18 0 15 10 9 0 0) (op 3 3 18 0 18 0 15 10 9 4 0), 65);
  (* 943 INST_61_LOBO *) (pr 6 6 0 0 (op 1 0 28 2 15 0 15 0 9 5 0) (op 0 0 28 2 20 0 15 0 9 0 0) (op 2 7 23 0 18 0 15 10 9 0 0) (op 3 3 18 0 18 0 15 10 9 4 0), 60);
  (* 950 INST_62_MUHICO *) (pr 6 6 0 0 (op 1 0 31 2 15 0 15 0 9 7 0) (op 1 0 31 2 18 0 15 0 9 0 0) (op 2 7 30 0 18 0 15 10 9 0 0) (op 2 1 18 0 22 0 15 10 10 0 0), 44);
  (* 957 INST_63_OPHICO *) (pr 6 6 0 0 (op 1 0 28 2 15 0 15 0 9 5 0) (op 0 0 28 2 23 0 15 0 10 0 0) (op 1 7 23 0 20 0 15 12 11 0 0) (op 1 1 18 0 16 0 15 12 8 0 0), 62);
  (* 964 INST_64_LOWCO *) (pr 6 6 0 0 (op 1 0 28 2 15 0 15 0 9 5 0) (op 0 0 28 2 22 0 15 0 10 0 0) (op 2 7 23 0 20 0 15 10 9 13 0) (op 1 3 18 0 15 0 15 10 8 6 0), 56);
  (* 971 INST_65_HIGHTIMBALE *) (pr 2 5 0 5 (op 3 1 31 2 25 0 12 8 6 6 0) (op 6 3 31 1 25 0 10 6 6 5 0) (op 0 0 31 1 19 0 11 5 12 13 0) (op 2 0 31 1 15 0 8 17 6 0 0), 67);
  (* 978 INST_66_LOWTIMBALE *) (pr 2 5 0 5 (op 3 1 31 2 25 0 12 8 10 6 0) (op 6 3 31 1 25 0 10 6 12 5 0) (op 0 0 31 1 19 0 11 5 12 10 0) (op 2 0 31 1 15 0 8 17 12 0 0), 60);
  (* 985 INST_67_HIAGOGO *) (pr 4 7 0 0 (op 3 0 31 2 16 0 8 16 6 13 0) (op 12 0 31 0 12 0 10 12 6 0 0) (op 0 0 0 0 0 0 0 0 0 127 0) (op 0 0 0 0 0 0 0 0 0 127 0), 58);
  (* 991 INST_68_LOAGOGO *) (pr 4 7 0 0 (op 3 0 31 2 16 0 8 16 6 13 0) (op 12 0 31 0 12 0 10 12 6 0 0) (op 0 0 0 0 0 0 0 0 0 127 0) (op 0 0 0 0 0 0 0 0 0 127 0), 53);
  (* 997 INST_69_CABASA *) (pr 1 6 3 5 (op 15 2 31 1 5 0 8 2 1 6 0) (op 15 0 31 2 5 0 5 2 3 1 0) (op 13 7 25 2 5 0 7 2 1 2 0) (op 3 3 13 2 17 0 10 11 9 0 0), 67);
  (* 1003 INST_70_MARACAS *) (pr 4 7 0 0 (op 15 0 24 1 14 0 4 24 9 0 0) (op 2 0 14 2 22 0 8 25 13 0 0) (op 15 0 24 3 16 0 4 18 9 0 0) (op 15 0 18 0 18 0 6 18 9 31 0), 71);
  (* 1010 INST_71_SHORTWHISTLE *) (pr 4 0 0 0 (op 0 0 18 0 10 0 0 0 11 37 0) (op 14 0 18 0 11 0 2 22 11 0 0) (op 0 0 0 0 0 0 15 0 0 127 0) (op 0 0 0 0 0 0 15 0 0 127 0), 55);
  (* 1016 INST_72_LONGWHISTLE *) (pr 4 0 0 0 (op 0 0 18 0 10 0 0 0 11 37 0) (op 14 0 18 0 8 0 2 22 11 0 0) (op 0 0 0 0 0 0 15 0 0 127 0) (op 0 0 0 0 0 0 15 0 0 127 0), 51);
  (* 1022 INST_73_SHORT_GUIRO *) (pr 4 7 0 0 (op 0 0 31 0 11 0 0 10 6 0 0) (op 0 0 15 0 14 0 1 16 8 2 0) (op 0 0 0 0 0 0 0 0 0 127 0) (op 0 0 0 0 0 0 0 0 0 127 0), 62);
  (* 1028 INST_74_LONG_GUIRO *) (pr 4 7 0 0 (op 0 0 31 0 9 0 0 9 6 0 0) (op 0 0 12 0 14 0 1 16 8 7 0) (op 0 0 0 0 0 0 0 0 0 127 0) (op 0 0 0 0 0 0 0 0 0 127 0), 62);
  (* 1034 INST_75_WOODBLOCK *) (pr 4 7 0 0 (op 7 1 31 0 22 0 12 22 8 20 0) (op 5 1 31 0 18 0 11 28 8 0 0) (op 14 1 31 3 25 0 14 12 8 10 0) (op 9 1 31 3 20 0 1 13 8 5 0), 69);
  (* 1041 INST_76_WOODBLOCK *) (pr 4 7 0 0 (op 7 1 31 0 22 0 12 22 8 20 0) (op 5 1 31 0 18 0 11 28 8 0 0) (op 14 1 31 3 25 0 14 12 8 10 0) (op 9 1 31 3 20 0 1 13 8 6 0), 59);
  (* 1048 INST_77_WOODBLOCK *) (pr 4 7 0 0 (op 7 1 31 0 22 0 12 22 8 20 0) (op 5 1 31 0 18 0 11 28 8 0 0) (op 14 1 31 3 25 0 14 12 8 10 0) (op 9 1 31 3 20 0 1 13 8 6 0), 53);
  (* 1055 INST_78_MUTE_CUIKA *) (pr 4 7 0 0 (op 2 7 12 0 15 0 0 15 7 39 0) (op 8 7 14 1 6 0 0 17 6 0 0) (op 1 0 12 0 15 0 0 15 7 27 0) (op 8 0 14 2 6 0 0 17 6 0 0), 45);
  (* 1061 INST_79_OPEN_CUIKA *) (pr 4 7 0 0 (op 1 0 12 0 15 0 0 15 7 38 0) (op 4 0 14 0 6 0 0 17 6 0 0) (op 1 0 12 0 0 0 0 0 7 30 0) (op 1 0 14 0 15 0 11 14 6 23 0), 39);
  (* 1067 INST_80_MUTETRIANGLE *) (pr 4 4 0 0 (op 3 0 31 0 0 0 8 0 0 26 0) (op 2 0 31 0 15 0 8 13 11 0 0) (op 0 0 0 0 0 0 0 0 0 127 0) (op 0 0 0 0 0 0 0 0 0 127 0), 99);
  (* 1073 INST_81_OPENTRIANGLE *) (pr 4 4 0 0 (op 3 0 31 0 0 0 8 0 0 26 0) (op 2 0 31 0 8 0 8 8 5 0 0) (op 0 0 0 0 0 0 0 0 0 127 0) (op 0 0 0 0 0 0 0 0 0 127 0), 99);
  (* 1079 INST_82_SHAKER *) (pr 4 7 0 0 (op 15 0 24 1 14 0 4 24 9 0 0) (op 2 0 12 2 22 0 8 25 13 14 0) (op 15 0 24 3 16 0 4 18 9 0 0) (op 15 0 18 0 18 0 6 18 9 18 0), 71);
  (* 1086 INST_83_JINGLEBELLS *) (pr 4 7 0 0 (op 5 0 31 0 4 0 15 15 4 24 0) (op 4 0 17 1 11 0 10 7 6 9 0) (op 5 0 31 0 9 0 15 16 0 28 0) (op 4 0 17 1 11 0 10 7 5 14 0), 79);
  (* 1093 INST_84_BELLTREE *) (pr 4 5 0 0 (op 5 0 20 0 13 0 1 0 0 9 0) (op 9 0 20 0 21 0 4 8 4 0 0) (op 5 0 0 0 0 0 0 0 0 127 0) (op 8 0 0 0 0 0 0 0 0 127 0), 83);
  (* 1099 INST_85_CASTANETS *) (pr 4 3 0 0 (op 9 0 31 0 11 0 15 0 15 23 0) (op 4 0 31 2 20 0 15 0 15 13 0) (op 1 0 31 0 19 0 15 0 15 15 0) (op 2 0 31 2 20 0 15 0 15 13 0), 62);
  (* 1106 INST_86_MUTESURDO *) (pr 6 6 0 0 (op 1 0 28 2 15 0 15 0 15 5 0) (op 0 0 19 3 20 0 15 0 15 0 0) (op 1 7 16 0 18 0 15 10 15 0 0) (op 1 3 14 0 14 0 15 10 7 0 0), 48);
  (* 1113 INST_87_OPENSURDO *) (pr 6 6 0 0 (op 1 0 28 2 15 0 15 0 15 5 0) (op 0 0 19 3 20 0 15 0 15 0 0) (op 1 7 16 0 18 0 15 10 15 0 0) (op 1 3 14 0 11 0 15 8 5 0 0), 41);
  (* 1120 *) no_drum;
  (* 1126 *) no_drum;
  (* 1132 *) no_drum;
  (* 1138 *) no_drum;
  (* 1144 *) no_drum;
  (* 1150 *) no_drum;
  (* 1156 *) no_drum;
  (* 1162 *) no_drum;
  (* 1168 *) no_drum;
  (* 1174 *) no_drum;
  (* 1180 *) no_drum;
  (* 1186 *) no_drum;
  (* 1192 *) no_drum;
  (* 1198 *) no_drum;
  (* 1204 *) no_drum;
  (* 1210 *) no_drum;
  (* 1216 *) no_drum;
  (* 1222 *) no_drum;
  (* 1228 *) no_drum;
  (* 1234 *) no_drum;
  (* 1240 *) no_drum;
  (* 1246 *) no_drum;
  (* 1252 *) no_drum;
  (* 1258 *) no_drum;
  (* 1264 *) no_drum;
  (* 1270 *) no_drum;
  (* 1276 *) no_drum;
  (* 1282 *) no_drum;
  (* 1288 *) no_drum;
  (* 1294 *) no_drum;
  (* 1300 *) no_drum;
  (* 1306 *) no_drum;
  (* 1312 *) no_drum;
  (* 1318 *) no_drum;
  (* 1324 *) no_drum;
  (* 1330 *) no_drum;
  (* 1336 *) no_drum;
  (* 1342 *) no_drum;
  (* 1348 *) no_drum;
  (* 1354 *) no_drum].

(** The samples, pcm_sample.c:9-78, numbered in the order of first use:
    0 highq, 1 slap, 2 scratchpush, 3 scratchpull, 4 sticks, 5 squareclick, 6 metronomeclick, 7
    metronomebell, 8 stdkick, 9 rimtap, 10 stdsnr1, 11 clap, 12 stdsnr2, 13 lowflrstudio, 14
    hi_hatclosed, 15 flrstudio, 16 hi_hatfoot, 17 lowstudio, 18 hi_hathalf_open, 19 mdstudio, 20
    mdhistudio, 21 crsh1, 22 histudio, 23 ride1, 24 chinacrash, 25 bellride, 26 tambourine, 27
    splash, 28 cowbell, 29 crsh2, 30 vibraslap, 31 ride2, 32 bongorim, 33 lowbongo, 34 closedslap,
    35 highconga, 36 lowtumba, 37 hightimbale, 38 lowtimbale, 39 highagogo, 40 lowagogo, 41 cabasa,
    42 maracas, 43 shortwhistle, 44 longwhistle, 45 guirodown, 46 guiroup, 47 clave, 48
    highwoodblock, 49 lowwoodblock, 50 quicahi, 51 quicalow, 52 triangle, 53 smallshaker, 54
    sleighbells, 55 belltree, 56 castanet, 57 shorttaikohit, 58 longtaikohit. *)
(** percussionPcmSample, pcm_sample.c:80-107. *)
Definition PCM_SAMPLES : list (option Z) := [
  None; None; None; None; None; None; None; None; None; None; None; None; None; None; None; None;
  None; None; None; None; None; None; None; None; None; None; Some 0; Some 1; Some 2; Some 3; Some
  4; Some 5; Some 6; Some 7; Some 8; Some 8; Some 9; Some 10; Some 11; Some 12; Some 13; Some 14;
  Some 15; Some 16; Some 17; Some 18; Some 19; Some 20; Some 21; Some 22; Some 23; Some 24; Some 25;
  Some 26; Some 27; Some 28; Some 29; Some 30; Some 31; Some 32; Some 33; Some 34; Some 35; Some 36;
  Some 37; Some 38; Some 39; Some 40; Some 41; Some 42; Some 43; Some 44; Some 45; Some 46; Some 47;
  Some 48; Some 49; Some 50; Some 51; Some 52; Some 52; Some 53; Some 54; Some 55; Some 56; Some 57;
  Some 58; None; None; None; None; None; None; None; None; None; None; None; None; None; None; None;
  None; None; None; None; None; None; None; None; None; None; None; None; None; None; None; None;
  None; None; None; None; None; None; None; None; None; None].
