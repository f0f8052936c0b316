(** Witnesses for the notes of the PSG. *)
From Verif Require Import Base PitchSpec PsgModel PsgSpec SynthModel MidiModel RomData DevModel DevSpec AppModel AppSpec AppExampleProofs SoundSpec SoundExampleProofs SongSpec.
From Verif Require MidiSpec.
Import MidiSpec.
Local Notation held := PsgSpec.held.

(** Volume 90 and an uploaded envelope on MIDI channel 7, the first PSG voice; note 69 is
    held for four frames and bent on the way, then released. *)
Definition wave : list Z := [0x01; 254; 0x23; 0x04; 253; 0x05].
Definition ready : list aop := [AMsg (MCc 6 7 90); AMsg (upload wave)].
Definition bends : list aop := [AFrame; AMsg (MBend 6 0x2400); AFrame; AFrame; AFrame].
Definition rests : list aop := [AFrame; AMsg (MNoteOn 0 60 100)].
Definition wave_on : list aop := ready ++ AMsg (MNoteOn 6 69 100) :: bends.
Definition wave_off : list aop := wave_on ++ AMsg (MNoteOff 6 69) :: rests.
Lemma wave_asked : MidiSpec.is_chan 6 /\ wave ++ [255] = loop_env [0x01] [0x23; 0x04] [0x05] [] /\ nibbles wave = [0; 1; 15; 14; 2; 3; 0; 4; 15; 13; 0; 5] /\
  frames bends = 4 /\ MidiSpec.st_vol (MidiSpec.settings (map message wave_on) 6) = 90 /\ pitched (map message wave_on) 6 69 = 6925 /\ bent (map message ready) 6 69 = 6900 /\
  held [0x01] [0x23; 0x04] 4 = Some 0x04 /\ released [0x01] [0x23; 0x04] [0x05] 4 1 = Some 0x05 /\ released [0x01] [0x23; 0x04] [0x05] 4 2 = None.
Proof. vm_compute. intuition discriminate. Qed.
Lemma ready_plain : without remapping ready /\ without (eq MReset) ready /\ without remaps ready.
Proof.
  split; [no_message|]. split.
  - intros m H. cbn in H. destruct H as [H|[H|[]]]; injection H as <-; discriminate.
  - intros m H. cbn in H. destruct H as [H|[H|[]]]; injection H as <-; intros [(a & b & [=])|[(a & [=])|[(a & [=])|(t & [=])]]].
Qed.
Lemma wave_plain : without remaps wave_on.
Proof.
  intros m H. cbn in H. repeat (destruct H as [H|H]; [try discriminate H; injection H as <-; intros [(a & b & [=])|[(a & [=])|[(a & [=])|(t & [=])]]]|]). destruct H.
Qed.
Lemma ready_envelope : voice_envelope (shipped false) ready 6 (loop_env [0x01] [0x23; 0x04] [0x05] []).
Proof.
  left. exists [AMsg (MCc 6 7 90)], wave, []. split; [reflexivity|]. split; [intros m []|]. split; [|reflexivity].
  repeat (constructor; [unfold byte; lia|]). constructor.
Qed.
Lemma ready_given : given_psg (shipped false) no_cartridge blank_memory ready 6 69 100 0.
Proof. left. split; [reflexivity|]. split; [apply ready_plain|]. cbn. lia. Qed.
Lemma leaves_other c m : match m with MNoteOn a _ _ => a <> c | MBend _ _ => True | _ => False end -> leaves_note c m.
Proof.
  destruct m; try contradiction; intros H; (split; [intros [(? & ? & [=])|[(? & ? & [=])|[(? & [=])|(? & [=])]]]|]); (split; [intros (? & [=])|]); (split; [intros (? & [=])|]); (split; [discriminate|]); exact H.
Qed.
Lemma bends_quiet : undisturbed 6 bends.
Proof. intros m H. cbn in H. repeat (destruct H as [H|H]; [try discriminate H; injection H as <-; apply leaves_other; exact Logic.I|]). destruct H. Qed.
Lemma wave_lets_go : lets_go wave_on 6 69 0 (MNoteOff 6 69).
Proof. right. split; [left; reflexivity|]. split; [reflexivity|]. split; [exact wave_plain|]. intros q H. cbn in H. destruct H as [H|[]]. congruence. Qed.
Lemma wave_left_alone : left_alone wave_on rests 6 0.
Proof.
  split; [|left; split; [reflexivity|exact wave_plain]]. intros m H. cbn in H. destruct H as [H|[H|[]]]; [discriminate H|]. injection H as <-. split; [apply leaves_other; discriminate|discriminate].
Qed.
Lemma wave_heard : exists s tr, history (shipped false) no_cartridge blank_memory wave_on s tr /\ chip_att att_at_boot tr 0 = psg_level 90 100 4 /\ chip_tone tone_at_boot tr 0 = psg_tone false 6925.
Proof.
  destruct (app_see false wave_on (fun _ tr => (chip_att att_at_boot tr 0 =? psg_level 90 100 4) && (chip_tone tone_at_boot tr 0 =? psg_tone false 6925)) true) as (s & tr & H & C); [reflexivity|vm_compute; reflexivity|].
  apply andb_prop in C as [C1 C2]. exists s, tr. split; [exact H|]. lia.
Qed.
Lemma wave_fades : exists s tr, history (shipped false) no_cartridge blank_memory wave_off s tr /\ chip_att att_at_boot tr 0 = psg_level 90 100 5.
Proof.
  destruct (app_see false wave_off (fun _ tr => (chip_att att_at_boot tr 0 =? psg_level 90 100 5)) true) as (s & tr & H & C); [reflexivity|vm_compute; reflexivity|].
  exists s, tr. split; [exact H|]. lia.
Qed.
Definition sung (i c p : Z) (b : bool) (s : midi) : bool :=
  match zget (md_dev s) i with Some d => Bool.eqb (d_on d) b && (negb b || (d_midi d =? c) && (d_pitch d =? p)) | None => false end.
(** A dynamic allocation: six FM voices are busy, the seventh note is given to the PSG. *)
Definition full_fm : list aop := AMsg (MSysex [0x7E; 0x7F; 0x09; 0x01]) :: map (fun p => AMsg (MNoteOn 0 p 100)) [60; 62; 64; 65; 67; 69].
Lemma full_given : without remapping full_fm /\ given_psg (shipped false) no_cartridge blank_memory full_fm 0 72 100 0.
Proof.
  split; [no_message|]. right.
  destruct (app_see false full_fm (fun s _ => sung 6 0 72 false (a_midi s)) true) as (s0 & tr0 & H0 & C0); [reflexivity|vm_compute; reflexivity|].
  destruct (app_see false (full_fm ++ [AMsg (MNoteOn 0 72 100)]) (fun s _ => sung 6 0 72 true (a_midi s)) true) as (s1 & tr1 & H1 & C1); [reflexivity|vm_compute; reflexivity|].
  exists s0, tr0, s1, tr1. split; [exact H0|]. split; [exact H1|]. unfold sung in C0, C1. unfold taken, dev_at. change (6 + 0) with 6.
  destruct (zget (md_dev (a_midi s0)) 6) as [d0|]; [|discriminate C0]. destruct (zget (md_dev (a_midi s1)) 6) as [d1|]; [|discriminate C1].
  apply andb_prop in C0 as [C0 _]. apply andb_prop in C1 as [C1 C2]. apply Bool.eqb_prop in C0, C1. cbn [negb orb] in C2. apply andb_prop in C2 as [C2 C3].
  exists d0, d1. repeat (split; [reflexivity || assumption|]). lia.
Qed.
Lemma full_plain : without (eq MReset) full_fm.
Proof. intros m H. cbn in H. repeat (destruct H as [H|H]; [injection H as <-; discriminate|]). destruct H. Qed.
Lemma wave_example :
  psg_note (shipped false) no_cartridge blank_memory ready 6 69 100 0 /\ undisturbed 6 bends /\ in_range wave_on 6 69 /\
  voice_envelope (shipped false) ready 6 (loop_env [0x01] [0x23; 0x04] [0x05] []) /\
  st_vol (settings (map message wave_on) 6) = 90 /\ pitched (map message wave_on) 6 69 = 6925 /\ held [0x01] [0x23; 0x04] (frames bends) = Some 0x04 /\
  exists s tr, history (shipped false) no_cartridge blank_memory wave_on s tr /\
    chip_att att_at_boot tr 0 = psg_level 90 100 4 /\ chip_tone tone_at_boot tr 0 = psg_tone false 6925.
Proof.
  destruct ready_plain as (A1 & A2 & _).
  split; [|split; [exact bends_quiet|split; [vm_compute; intuition discriminate|split; [exact ready_envelope|]]]].
  - split; [unfold is_psg; lia|]. split; [lia|]. split; [exact ready_given|]. split; [exact A1|]. split; [exact A2|]. split; [reflexivity|]. vm_compute. intuition discriminate.
  - destruct wave_asked as (_ & _ & _ & _ & B1 & B2 & _ & B3 & _). split; [exact B1|]. split; [exact B2|]. split; [exact B3|]. exact wave_heard.
Qed.
Lemma full_example : psg_note (shipped false) no_cartridge blank_memory full_fm 0 72 100 0.
Proof.
  destruct full_given as [A1 A2]. split; [unfold is_psg; lia|]. split; [lia|]. split; [exact A2|]. split; [exact A1|]. split; [exact full_plain|]. split; [reflexivity|]. vm_compute. intuition discriminate.
Qed.
Lemma rom_example : voice_envelope (shipped false) [AMsg (MProgram 7 5)] 7 (firstn 23 ENVELOPE_0 ++ 254 :: [1; 1; 0x11; 0x11; 1; 1; 0x81; 0x81] ++ 253 :: [1;2;3;4;5;6;7;8;9;10;11;12;13;14;15] ++ [255]).
Proof. right. split; [no_message|]. vm_compute. reflexivity. Qed.
Lemma fades_example :
  lets_go wave_on 6 69 0 (MNoteOff 6 69) /\ left_alone wave_on rests 6 0 /\ lets_go full_fm 0 72 0 (MCc 0 123 0) /\
  released [0x01] [0x23; 0x04] [0x05] (frames bends) (frames rests) = Some 0x05 /\
  exists s tr, history (shipped false) no_cartridge blank_memory (wave_on ++ AMsg (MNoteOff 6 69) :: rests) s tr /\
    chip_att att_at_boot tr 0 = psg_level 90 100 5.
Proof.
  split; [exact wave_lets_go|]. split; [exact wave_left_alone|]. split; [left; exists 0; left; reflexivity|]. split; [reflexivity|]. exact wave_fades.
Qed.
Definition ten_stops : list aop := concat (repeat [AMsg (MNoteOn 0 60 100); AMsg (MCc 0 123 0)] 10).
Lemma ten_example :
  Forall (press_or_stop 0) ten_stops /\ key_presses ten_stops = 10%nat /\
  exists s tr, history (shipped false) no_cartridge blank_memory (ten_stops ++ AMsg (MCc 0 123 0) :: [AMsg (MNoteOn 0 64 100)]) s tr.
Proof.
  split; [|split; [reflexivity|]].
  - cbn. repeat (constructor; [right; first [left; do 2 eexists; split; [reflexivity|lia] | right; eexists; reflexivity]|]). constructor.
  - destruct (app_see false (ten_stops ++ AMsg (MCc 0 123 0) :: [AMsg (MNoteOn 0 64 100)]) (fun _ _ => tt) tt) as (s & tr & H & _); [reflexivity|vm_compute; reflexivity|]. eauto.
Qed.
Definition slide_stop : list aop := [AMsg (MNoteOn 0 60 100); AFrame].
Lemma slide_example :
  Forall (press_or_stop 0) slide_stop /\ key_presses slide_stop = 1%nat /\
  exists s tr, history (shipped false) no_cartridge blank_memory (AMsg (MCc 0 65 127) :: slide_stop ++ AMsg (MCc 0 123 0) :: [AMsg (MNoteOn 0 64 100); AFrame; AMsg (MNoteOn 0 67 100)]) s tr.
Proof.
  split; [|split; [reflexivity|]].
  - constructor; [right; left; do 2 eexists; split; [reflexivity|lia]|]. constructor; [left; reflexivity|constructor].
  - destruct (app_see false (AMsg (MCc 0 65 127) :: slide_stop ++ AMsg (MCc 0 123 0) :: [AMsg (MNoteOn 0 64 100); AFrame; AMsg (MNoteOn 0 67 100)]) (fun _ _ => tt) tt) as (s & tr & H & _); [reflexivity|vm_compute; reflexivity|]. eauto.
Qed.
