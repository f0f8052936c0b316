(** Pieces played over the network. *)
From Verif Require Import Base BaseLemmas PitchSpec PsgModel PsgSpec SynthModel SynthSpec MidiModel MidiSpec DevModel DevSpec AppModel AppSpec AppExampleProofs SoundSpec SongSpec SongExampleProofs RxModel RxSpec MachineSpec NetModel NetSpec.
From Verif Require RtpSpec RtpExampleProofs NetExampleProofs MachineExampleProofs.
From Verif Require Import WifiModel WifiSpec WifiProofs WifiExampleProofs AirSpec AirProofs.
Import RtpSpec(Section_of, Item, Cmd, Sysex, rtp_packet).
Local Notation hdr := RtpExampleProofs.hdr0.

(** An envelope and a note in one packet, a bend, the release, and a note elsewhere. *)
Definition p_note : RtpSpec.section := Section_of true false false false
  [Item [] false (Cmd 0xB6 [7; 90]); Item [0] false (Sysex [0; 0x22; 0x77; 6; 0; 1; 15; 14; 2; 3; 0; 4; 15; 13; 0; 5]); Item [0] false (Cmd 0x96 [69; 100])] [].
Definition p_bend : RtpSpec.section := Section_of false false false false [Item [] false (Cmd 0xE6 [0; 0x48])] [].
Definition p_off : RtpSpec.section := Section_of false false false false [Item [] false (Cmd 0x86 [69; 64])] [].
Definition p_other : RtpSpec.section := Section_of false false false false [Item [] false (Cmd 0x90 [60; 100])] [].
Ltac air_ok :=
  split; [reflexivity|]; split; [RtpExampleProofs.bytes|]; split; [|split; [apply Forall_nil|reflexivity]]; split; [cbv; congruence|];
  cbn [RtpSpec.sec_items RtpSpec.sec_z RtpSpec.it_delta RtpSpec.it_cmd RtpSpec.rest_ok p_note p_bend p_off p_other];
  repeat match goal with |- _ /\ _ => split end; try reflexivity; try RtpExampleProofs.delta; try RtpExampleProofs.cmd; try RtpExampleProofs.omitted; try exact Logic.I; left; reflexivity.
Ltac air_handled := split; [reflexivity|]; split; [cbv; congruence|]; split; [repeat (apply Forall_cons; [RtpExampleProofs.handled_item|]); apply Forall_nil|apply Forall_nil].
Ltac air_msgs := repeat (apply Forall_cons; [cbn; unfold chan_ok, data_ok; repeat split; try lia; repeat (apply Forall_cons; [lia|]); try apply Forall_nil|]); apply Forall_nil.
Definition l_note : list msg := [Control 6 7 90; SysEx [0; 0x22; 0x77; 6; 0; 1; 15; 14; 2; 3; 0; 4; 15; 13; 0; 5]; NoteOn 6 69 100].
Lemma note_brings : brings 2 (rtp_packet hdr p_note []) l_note.
Proof. constructor; [air_ok|air_handled|reflexivity|air_msgs|reflexivity]. Qed.
Lemma bend_brings : brings 2 (rtp_packet hdr p_bend []) [Bend 6 0x2400].
Proof. constructor; [air_ok|air_handled|reflexivity|air_msgs|reflexivity]. Qed.
Lemma off_brings : brings 2 (rtp_packet hdr p_off []) [NoteOff 6 69 64].
Proof. constructor; [air_ok|air_handled|reflexivity|air_msgs|reflexivity]. Qed.
Lemma other_brings : brings 2 (rtp_packet hdr p_other []) [NoteOn 0 60 100].
Proof. constructor; [air_ok|air_handled|reflexivity|air_msgs|reflexivity]. Qed.

Definition on_events : list wevent := [listens; invited; all_sent; gets p_note; WFrame 1; gets p_bend; WFrame 1; WFrame 1; listens; WFrame 1].
Definition off_events : list wevent := on_events ++ [gets p_off; WFrame 1; gets p_other].
Ltac got l ops := eapply (as_got _ true true 2 _ l _ ops); [reflexivity| |].
Lemma on_asks rest ops : asks true rest ops -> asks false (on_events ++ rest) (wave_on ++ ops).
Proof.
  intros R. unfold on_events, listens, invited, all_sent, gets. cbn [Datatypes.app]. apply as_deaf.
  apply (as_got _ true true 1 (NetExampleProofs.control_from ++ NetExampleProofs.invitation) [] _ (wave_on ++ ops)); [reflexivity|constructor; lia|].
  apply as_quiet; [reflexivity|]. change (wave_on ++ ops) with (told l_note ++ (bends ++ ops)). got l_note (bends ++ ops); [exact note_brings|].
  change (bends ++ ops) with (AFrame :: told [Bend 6 0x2400] ++ (AFrame :: AFrame :: AFrame :: ops)). apply as_frame.
  got [Bend 6 0x2400] (AFrame :: AFrame :: AFrame :: ops); [exact bend_brings|]. apply as_frame. apply as_frame. apply as_quiet; [reflexivity|]. apply as_frame. exact R.
Qed.
Lemma off_asks : asks false off_events wave_off.
Proof.
  unfold off_events, wave_off. apply on_asks. unfold gets. change (AMsg (MNoteOff 6 69) :: rests) with (told [NoteOff 6 69 64] ++ AFrame :: told [NoteOn 0 60 100] ++ []).
  got [NoteOff 6 69 64] (AFrame :: told [NoteOn 0 60 100] ++ []); [exact off_brings|]. apply as_frame. got [NoteOn 0 60 100] (@nil aop); [exact other_brings|]. apply as_none.
Qed.
Lemma on_asks' : asks false on_events wave_on.
Proof. rewrite <- (app_nil_r on_events), <- (app_nil_r wave_on). apply on_asks. apply as_none. Qed.
Lemma on_events_ok : Forall wev_ok on_events. Proof. evs_ok. Qed.
Lemma off_events_ok : Forall wev_ok off_events. Proof. evs_ok. Qed.

Lemma air_wave_example :
  psg_note (shipped false) no_cartridge blank_memory ready 6 69 100 0 /\ undisturbed 6 bends /\ in_range wave_on 6 69 /\
  voice_envelope (shipped false) ready 6 (loop_env [0x01] [0x23; 0x04] [0x05] []) /\ PsgSpec.held [0x01] [0x23; 0x04] (frames_done bends) = Some 0x04 /\
  exists a out, played (shipped false) no_cartridge blank_memory on_events (ready ++ AMsg (MNoteOn 6 69 100) :: bends) a out /\
    chip_att att_at_boot out 0 = psg_level 90 100 4 /\ chip_tone tone_at_boot out 0 = psg_tone false 6925.
Proof.
  destruct wave_example as (A & B & C & D & _). split; [exact A|]. split; [exact B|]. split; [exact C|]. split; [exact D|]. split; [reflexivity|].
  destruct wave_heard as (a & out & H & K). exists a, out. split; [|exact K]. exact (played_can _ _ _ _ _ _ _ H on_events_ok on_asks').
Qed.
Lemma air_release_example : lets_go wave_on 6 69 0 (MNoteOff 6 69) /\ left_alone wave_on rests 6 0 /\
  PsgSpec.released [0x01] [0x23; 0x04] [0x05] (frames_done bends) (frames_done rests) = Some 0x05 /\
  exists a out, played (shipped false) no_cartridge blank_memory off_events (wave_on ++ AMsg (MNoteOff 6 69) :: rests) a out /\ chip_att att_at_boot out 0 = psg_level 90 100 5.
Proof.
  split; [exact wave_lets_go|]. split; [exact wave_left_alone|]. split; [reflexivity|].
  destruct wave_fades as (a & out & H & K). exists a, out. split; [|exact K]. exact (played_can _ _ _ _ _ _ _ H off_events_ok off_asks).
Qed.

Ltac none := let m := fresh in let H := fresh in intros m H; cbn in H;
  repeat (destruct H as [H|H]); try contradiction; try discriminate H; injection H as <-; MachineExampleProofs.not_such.

(** Two notes of the program selected, in one packet. *)
Definition first_two : list aop := AFrame :: told [Program 0 5; NoteOn 0 60 100].
Lemma air_fm_example : without raw_write first_two /\ without (is_cc 78) first_two /\ without (is_cc 65) first_two /\
  without remaps first_two /\ without remapping first_two /\ without (is_cc 77) first_two /\ without edits_fm first_two /\
  without stores first_two /\ drums_in_order (msgs first_two) /\ (length (filter (fun k => Z.eqb (fst k) 0) (MidiSpec.held (msgs first_two))) < 10)%nat /\
  0 <= bent (msgs first_two) 0 64 /\ pitched (msgs first_two) 0 64 = 6400 /\ st_prog (settings (msgs first_two) 0) = 5 /\
  exists a out, played (shipped false) no_cartridge blank_memory song_events (first_two ++ AMsg (MNoteOn 0 64 100) :: [AFrame]) a out /\ key_state out 0 = Some true.
Proof.
  do 8 (split; [none|]). split; [vm_compute; congruence|]. split; [vm_compute; lia|]. split; [vm_compute; congruence|]. split; [reflexivity|]. split; [reflexivity|].
  destruct c103_example as (s & out & radio & O & A & K). exists (w_app s), out. split; [|exact K]. exists s, radio. auto.
Qed.
Lemma air_calm_example : Forall calm (msgs wave_off) /\ MidiSpec.held (msgs wave_on) = [(6, 69)] /\ MidiSpec.held (msgs (wave_on ++ [AMsg (MNoteOff 6 69)])) = [].
Proof.
  split; [|split; reflexivity]. apply Forall_forall. intros m H. cbn in H.
  repeat (destruct H as [<-|H]; [split; [intros (? & ? & [=])|intros (l & E & O)]|]); try discriminate; try contradiction.
  injection E as <-. apply Nat.odd_spec in O. discriminate.
Qed.
