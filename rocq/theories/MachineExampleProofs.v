(** A run of the machine: bytes, screen interrupts and steps of the main loop. *)
From Verif Require Import Base BaseLemmas RingBufModel SchedulerModel PsgModel PsgSpec SynthModel SynthSpec MidiModel MidiSpec RxModel RxSpec SerialModel RomData.
From Verif Require Import DevModel DevSpec AppModel AppSpec AppExampleProofs SoundSpec SoundExampleProofs SongSpec MachineModel MachineSpec MachineProofs MachineRunProofs MachineWireProofs.

Definition empty_buffer : list Z := repeat 0 512.
Local Notation runs evs m tr := (running (shipped false) no_cartridge blank_memory empty_buffer evs m tr).
Definition machine_view {V} (evs : list mevent) (view : machine -> list event -> V) : option V :=
  match app_boot (shipped false) no_cartridge blank_memory [] with
  | Done _ a o1 => match machine_run (shipped false) evs (machine_start a empty_buffer) with Done _ m o2 => Some (view m (o1 ++ o2)) | Fault _ => None end
  | Fault _ => None
  end.
Lemma machine_see {V} evs (view : machine -> list event -> V) v : machine_view evs view = Some v -> exists m tr, runs evs m tr /\ view m tr = v.
Proof.
  unfold machine_view. destruct (app_boot (shipped false) no_cartridge blank_memory []) as [[] a o1|f] eqn:Ea; [|discriminate].
  destruct (machine_run (shipped false) evs (machine_start a empty_buffer)) as [[] m o2|f] eqn:Em; [|discriminate]. intros [= E].
  exists m, (o1 ++ o2). split; [|exact E]. split; [apply shipped_ok|]. split; [exact blank_memory_ok|]. split; [cbn; lia|].
  exists a, o1, o2. auto.
Qed.

(** Checking that every blank finds the earlier ones seen to. *)
Definition seenb (s : sched) : bool := (sc_frame s =? sc_prev s) && match sc_pc s with SchedulerModel.PTick | PCmp => true | _ => false end.
Lemma seenb_ok s : seenb s = true -> seen_to s.
Proof. unfold seenb, seen_to. intros H. apply andb_prop in H as [H1 H2]. split; [lia|]. destruct (sc_pc s); auto; discriminate. Qed.
Fixpoint promptb (evs : list mevent) (m : machine) : bool :=
  match evs with
  | [] => true
  | e :: t => (match e with BBlank => seenb (mc_sched m) | _ => true end) &&
              match machine_step (shipped false) e m with Done _ m' _ => promptb t m' | Fault _ => false end
  end.
Lemma promptb_ok evs : forall m, promptb evs m = true -> forall pre post m1 o, evs = pre ++ BBlank :: post ->
  machine_run (shipped false) pre m = Done tt m1 o -> seen_to (mc_sched m1).
Proof.
  induction evs as [|e evs IH]; intros m H pre post m1 o E R; [destruct pre; discriminate|]. cbn [promptb] in H. apply andb_prop in H as [H1 H2].
  destruct pre as [|y pre].
  - injection E as -> ->. cbn in R. injection R as <- _. apply seenb_ok, H1.
  - injection E as <- ->. apply run_cons in R as (m2 & o1 & o2 & E1 & E2 & ->). rewrite E1 in H2. exact (IH m2 H2 pre post m1 o2 eq_refl E2).
Qed.
Lemma machine_prompt evs : match app_boot (shipped false) no_cartridge blank_memory [] with Done _ a _ => promptb evs (machine_start a empty_buffer) | Fault _ => false end = true ->
  prompt (shipped false) no_cartridge blank_memory empty_buffer evs.
Proof.
  intros H pre post m tr E (_ & _ & _ & a & o1 & o2 & Ea & Em & _). rewrite Ea in H. exact (promptb_ok evs _ H pre post m o2 E Em).
Qed.

Fixpoint bucketb (n : nat) (evs : list mevent) : bool :=
  match evs with [] => true | e :: t => (bucket_step n e <=? 500)%nat && bucketb (bucket_step n e) t end.
Lemma bucketb_ok evs : forall n, bucketb n evs = true -> bucket_within 500 n evs.
Proof. induction evs as [|e t IH]; intros n H; [exact Logic.I|]. cbn [bucketb] in H. apply andb_prop in H as [H1 H2]. apply Nat.leb_le in H1. split; [exact H1|exact (IH _ H2)]. Qed.
Definition bytesb (l : list Z) : bool := forallb (fun b => (0 <=? b) && (b <? 256)) l.
Lemma machine_room evs : bytesb (arrived evs) = true -> bucketb 0 evs = true -> no_overrun (shipped false) no_cartridge blank_memory empty_buffer evs.
Proof.
  intros H1 H2. apply bucket_no_overrun; [|exact (bucketb_ok _ _ H2)]. apply Forall_forall. intros b Hb. apply (proj1 (forallb_forall _ _) H1) in Hb. red. lia.
Qed.

(** One frame; a message arriving at once, all but its last byte read. *)
Definition one_frame : list mevent := BBlank :: repeat BMain 10.
Definition burst (m : msg) : list mevent := map BArrive (encode m) ++ repeat BMain (length (encode m) - 1).
(** Byte by byte. *)
Definition trickle (m : msg) : list mevent := flat_map (fun b => [BArrive b; BMain]) (encode m).

(** An envelope is uploaded; a PSG note is played; two frames later an FM note, with a
    blank in the middle of the message; one frame later the PSG note is released. *)
Definition wave_up : msg := SysEx ([0x00; 0x22; 0x77; 0x06] ++ nibbles [0x01; 254; 0x23; 0x04; 253; 0x05]).
Definition to_note : list mevent := trickle wave_up ++ burst (NoteOn 6 69 100).
Definition fm_note_in : list mevent := [BArrive 0x90; BMain; BBlank; BArrive 60; BMain; BArrive 100; BMain] ++ repeat BMain 10.
Definition meanwhile : list mevent := one_frame ++ one_frame ++ fm_note_in.
Definition to_off : list mevent := meanwhile ++ burst (NoteOff 6 69 64).
Definition afterwards : list mevent := one_frame ++ one_frame.

Definition restb (m : machine) : bool := match sc_pc (mc_sched m) with SchedulerModel.PTick => true | _ => false end.
Lemma restb_ok m : restb m = true -> at_rest m.
Proof. unfold restb, at_rest. destruct (sc_pc (mc_sched m)); congruence. Qed.
(** The place of the main loop, whether bytes are waiting, outstanding frames. *)
Definition place (m : machine) : bool * bool * Z := (restb m, serial_read_ready (mc_port m), pending m).

Definition song : list msg := [wave_up; NoteOn 6 69 100; NoteOn 0 60 100].
Definition song_evs : list mevent := to_note ++ BMain :: meanwhile.
Definition whole_evs : list mevent := to_note ++ BMain :: to_off ++ BMain :: afterwards.
Lemma song_ok : Forall msg_ok (song ++ [NoteOff 6 69 64]).
Proof. repeat constructor; cbn; unfold chan_ok, data_ok; lia. Qed.
Lemma song_room : no_overrun (shipped false) no_cartridge blank_memory empty_buffer whole_evs.
Proof. apply machine_room; vm_compute; reflexivity. Qed.
Lemma whole_prompt : prompt (shipped false) no_cartridge blank_memory empty_buffer whole_evs.
Proof. apply machine_prompt. vm_compute. reflexivity. Qed.
Lemma whole_split : exists rest, whole_evs = song_evs ++ rest.
Proof. exists (burst (NoteOff 6 69 64) ++ BMain :: afterwards). reflexivity. Qed.
Lemma song_prompt : prompt (shipped false) no_cartridge blank_memory empty_buffer song_evs.
Proof. destruct whole_split as (rest & E). apply (prompt_prefix _ _ _ _ _ rest). rewrite <- E. exact whole_prompt. Qed.

Lemma song_received : exists m tr, received (shipped false) no_cartridge blank_memory empty_buffer song_evs song m tr /\ pending m = 0 /\
  key_state tr 0 = Some true /\ chip_freq tr 0 = Some (4, 644) /\ chip_att att_at_boot tr 0 = 4 /\ chip_tone tone_at_boot tr 0 = 253.
Proof.
  destruct (machine_see song_evs (fun m tr => (place m, key_state tr 0, chip_freq tr 0, chip_att att_at_boot tr 0, chip_tone tone_at_boot tr 0))
    (true, false, 0, Some true, Some (4, 644), 4, 253)) as (m & tr & H & E); [vm_compute; reflexivity|].
  unfold place in E. injection E as E1 E2 E3 E4 E5 E6 E7. exists m, tr. split; [|auto 10]. split; [exact H|].
  split; [exact (proj1 (proj1 (Forall_app _ song [NoteOff 6 69 64]) song_ok))|]. split; [reflexivity|].
  split; [|split; [exact (restb_ok _ E1)|exact E2]]. destruct whole_split as (rest & Ew). apply (overrun_prefix _ _ _ _ _ rest). rewrite <- Ew. exact song_room.
Qed.
Lemma whole_received : exists m tr, received (shipped false) no_cartridge blank_memory empty_buffer whole_evs (song ++ [NoteOff 6 69 64]) m tr /\ pending m = 0 /\
  chip_att att_at_boot tr 0 = 6 /\ chip_tone tone_at_boot tr 0 = 254.
Proof.
  destruct (machine_see whole_evs (fun m tr => (place m, chip_att att_at_boot tr 0, chip_tone tone_at_boot tr 0))
    (true, false, 0, 6, 254)) as (m & tr & H & E); [vm_compute; reflexivity|].
  unfold place in E. injection E as E1 E2 E3 E4 E5. exists m, tr. split; [|auto 10]. split; [exact H|].
  split; [exact song_ok|]. split; [reflexivity|]. split; [exact song_room|]. split; [exact (restb_ok _ E1)|exact E2].
Qed.
Lemma completes_see evs l x : arrived evs = stream (l ++ [x]) -> machine_view evs (fun m _ => place m) = Some (true, true, 0) ->
  machine_view (evs ++ [BMain]) (fun m _ => place m) = Some (true, false, 0) ->
  exists m, completes_with (shipped false) no_cartridge blank_memory empty_buffer evs l x m /\ pending m = 0.
Proof.
  intros A V1 V2. destruct (machine_see _ _ _ V1) as (m & tr & H & E). destruct (machine_see _ _ _ V2) as (m' & tr' & H' & E').
  unfold place in E, E'. injection E as E1 E2 E3. injection E' as E1' E2' E3'. exists m. split; [|exact E3]. split; [exact A|]. split; [exact (restb_ok _ E1)|].
  split; [unfold caught_up; congruence|]. exists tr, m', tr'. auto.
Qed.
Lemma note_completes : exists m, completes_with (shipped false) no_cartridge blank_memory empty_buffer to_note [wave_up] (NoteOn 6 69 100) m /\ pending m = 0.
Proof. apply completes_see; vm_compute; reflexivity. Qed.
Lemma off_completes : exists m, completes_with (shipped false) no_cartridge blank_memory empty_buffer (to_note ++ BMain :: to_off) song (NoteOff 6 69 64) m /\ pending m = 0.
Proof. apply completes_see; vm_compute; reflexivity. Qed.

(** The messages of a list are none of the kind. *)
Ltac not_such := let X := fresh in intros X;
  unfold remaps, remapping, raw_write, stores, edits_fm, is_cc, is_sysex_cmd, gm_reset_msg, own_sysex, upload in X;
  repeat match goal with
  | Y : _ \/ _ |- _ => destruct Y as [Y|Y]
  | Y : exists _, _ |- _ => destruct Y as [? Y]
  | Y : _ /\ _ |- _ => destruct Y as [Y ?]
  end; discriminate.
Ltac none_such := let m := fresh in let H := fresh in intros m H; cbn in H;
  repeat (destruct H as [H|H]); try contradiction; injection H as <-; not_such.
Lemma up_told : told [wave_up] = [AMsg (upload [0x01; 254; 0x23; 0x04; 253; 0x05])].
Proof. reflexivity. Qed.
Lemma song_psg : wire_psg [wave_up] 6 69 100.
Proof.
  unfold wire_psg. rewrite up_told. split; [lia|]. split; [lia|].
  split; [none_such|]. split; [none_such|]. split; [none_such|]. split; [none_such|].
  split; [cbn; lia|]. split; vm_compute; congruence.
Qed.
Lemma song_envelope : voice_envelope (shipped false) (told [wave_up]) 6 (loop_env [0x01] [0x23; 0x04] [0x05] []).
Proof.
  left. exists [], [0x01; 254; 0x23; 0x04; 253; 0x05], []. split; [reflexivity|]. split; [intros m []|]. split; [|reflexivity].
  repeat apply Forall_cons; try apply Forall_nil; red; lia.
Qed.
Lemma song_undisturbed : undisturbed 6 (told [NoteOn 0 60 100]).
Proof.
  intros m H. cbn in H. destruct H as [H|[]]. injection H as <-. unfold leaves_note.
  split; [not_such|]. split; [not_such|]. split; [not_such|]. split; [discriminate|lia].
Qed.
Lemma song_range : in_range (told song) 6 69.
Proof. split; vm_compute; congruence. Qed.
Lemma song_lets_go : lets_go (told song) 6 69 0 (MNoteOff 6 69).
Proof.
  right. split; [left; reflexivity|]. split; [reflexivity|]. split.
  - none_such.
  - intros q H. cbn in H. destruct H as [H|[H|[]]]; congruence.
Qed.
Lemma song_left : left_alone (told song) (told []) 6 0.
Proof. split; [intros m []|]. right. intros a q v []. Qed.

(** What the run meets, for each of the statements about the PSG. *)
Lemma psg_wire_example : wire_psg [wave_up] 6 69 100 /\ undisturbed 6 (told [NoteOn 0 60 100]) /\ in_range (told song) 6 69 /\
  voice_envelope (shipped false) (told [wave_up]) 6 (loop_env [0x01] [0x23; 0x04] [0x05] []) /\
  prompt (shipped false) no_cartridge blank_memory empty_buffer (to_note ++ BMain :: meanwhile) /\
  exists m1 m tr, completes_with (shipped false) no_cartridge blank_memory empty_buffer to_note [wave_up] (NoteOn 6 69 100) m1 /\
    received (shipped false) no_cartridge blank_memory empty_buffer (to_note ++ BMain :: meanwhile) ([wave_up] ++ NoteOn 6 69 100 :: [NoteOn 0 60 100]) m tr /\
    PsgSpec.held [0x01] [0x23; 0x04] (blanks meanwhile + pending m1 - pending m) = Some 0x23 /\
    chip_att att_at_boot tr 0 = 4 /\ chip_tone tone_at_boot tr 0 = 253.
Proof.
  split; [exact song_psg|]. split; [exact song_undisturbed|]. split; [exact song_range|]. split; [exact song_envelope|]. split; [exact song_prompt|].
  destruct note_completes as (m1 & C & P1). destruct song_received as (m & tr & R & P & _ & _ & K1 & K2). exists m1, m, tr. split; [exact C|]. split; [exact R|].
  rewrite P1, P. split; [reflexivity|]. auto.
Qed.
Lemma psg_release_example : lets_go (told song) 6 69 0 (MNoteOff 6 69) /\ left_alone (told song) (told []) 6 0 /\
  prompt (shipped false) no_cartridge blank_memory empty_buffer (to_note ++ BMain :: to_off ++ BMain :: afterwards) /\
  exists m1 m2 m tr, completes_with (shipped false) no_cartridge blank_memory empty_buffer to_note [wave_up] (NoteOn 6 69 100) m1 /\
    completes_with (shipped false) no_cartridge blank_memory empty_buffer (to_note ++ BMain :: to_off) ([wave_up] ++ NoteOn 6 69 100 :: [NoteOn 0 60 100]) (NoteOff 6 69 64) m2 /\
    received (shipped false) no_cartridge blank_memory empty_buffer (to_note ++ BMain :: to_off ++ BMain :: afterwards)
      ([wave_up] ++ NoteOn 6 69 100 :: [NoteOn 0 60 100] ++ NoteOff 6 69 64 :: []) m tr /\
    PsgSpec.released [0x01] [0x23; 0x04] [0x05] (blanks to_off + pending m1 - pending m2) (blanks afterwards + pending m2 - pending m) = Some 0x05 /\
    chip_att att_at_boot tr 0 = 6.
Proof.
  split; [exact song_lets_go|]. split; [exact song_left|]. split; [exact whole_prompt|].
  destruct note_completes as (m1 & C1 & P1). destruct off_completes as (m2 & C2 & P2). destruct whole_received as (m & tr & R & P & K & _).
  exists m1, m2, m, tr. split; [exact C1|]. split; [exact C2|]. split; [exact R|]. rewrite P1, P2, P. split; [reflexivity|exact K].
Qed.

(** The FM note of the same run. *)
Definition earlier : list msg := [wave_up; NoteOn 6 69 100].
Lemma fm_wire_example : without raw_write (told earlier) /\ without (is_cc 78) (told earlier) /\ without (is_cc 65) (told earlier) /\
  without remaps (told earlier) /\ without remapping (told earlier) /\ without (is_cc 77) (told earlier) /\ without edits_fm (told earlier) /\
  without stores (told earlier) /\ drums_in_order (meanings [] earlier) /\
  (length (filter (fun k => Z.eqb (fst k) 0) (MidiSpec.held (meanings [] earlier))) < 10)%nat /\
  0 <= bent (meanings [] earlier) 0 60 /\ pitched (meanings [] earlier) 0 60 = 6000 /\
  exists m tr, received (shipped false) no_cartridge blank_memory empty_buffer song_evs (earlier ++ [NoteOn 0 60 100]) m tr /\
    key_state tr 0 = Some true /\ chip_freq tr 0 = Some (4, 644).
Proof.
  do 8 (split; [none_such|]). split; [vm_compute; congruence|]. split; [vm_compute; lia|]. split; [vm_compute; congruence|]. split; [reflexivity|].
  destruct song_received as (m & tr & R & _ & K1 & K2 & _). exists m, tr. auto.
Qed.
(** A key pressed and released. *)
Definition tap : list msg := [NoteOn 0 60 100; NoteOff 0 60 64].
Definition tap_evs : list mevent := trickle (NoteOn 0 60 100) ++ one_frame ++ trickle (NoteOff 0 60 64) ++ one_frame.
Lemma tap_example : without raw_write (told tap) /\ without (is_cc 78) (told tap) /\ without (is_cc 65) (told tap) /\ without remapping (told tap) /\
  MidiSpec.held (meanings [] tap) = [] /\ exists m tr, received (shipped false) no_cartridge blank_memory empty_buffer tap_evs tap m tr /\ pending m = 0 /\ blanks tap_evs = 2.
Proof.
  do 4 (split; [none_such|]).
  split; [reflexivity|]. destruct (machine_see tap_evs (fun m _ => place m) (true, false, 0)) as (m & tr & H & E); [vm_compute; reflexivity|].
  unfold place in E. injection E as E1 E2 E3. exists m, tr. split; [|split; [exact E3|reflexivity]]. split; [exact H|]. split; [repeat constructor; cbn; unfold chan_ok, data_ok; lia|].
  split; [reflexivity|]. split; [apply machine_room; vm_compute; reflexivity|]. split; [exact (restb_ok _ E1)|exact E2].
Qed.

(** Half a Note On, after a note that sounds. *)
Definition half_evs : list mevent := trickle (NoteOn 6 69 100) ++ [BArrive 0x90; BMain; BArrive 60; BMain].
Lemma half_example : opens (NoteOn 0 60 100) /\ encode (NoteOn 0 60 100) = [0x90; 60] ++ [100] /\ Forall msg_ok ([NoteOn 6 69 100] ++ [NoteOn 0 60 100]) /\
  arrived half_evs = stream [NoteOn 6 69 100] ++ [0x90; 60] /\ no_overrun (shipped false) no_cartridge blank_memory empty_buffer half_evs /\
  exists m tr, runs half_evs m tr /\ at_rest m /\ caught_up m /\ chip_att att_at_boot tr 0 <> 15.
Proof.
  split; [exact Logic.I|]. split; [reflexivity|]. split; [repeat constructor; cbn; unfold chan_ok, data_ok; lia|]. split; [reflexivity|].
  split; [apply machine_room; vm_compute; reflexivity|].
  destruct (machine_see half_evs (fun m tr => (place m, chip_att att_at_boot tr 0)) (true, false, 0, 1)) as (m & tr & H & E); [vm_compute; reflexivity|].
  unfold place in E. injection E as E1 E2 E3 E4. exists m, tr. split; [exact H|]. split; [exact (restb_ok _ E1)|]. split; [exact E2|]. rewrite E4. discriminate.
Qed.
Definition long_time (n : nat) : list mevent := concat (repeat one_frame n).
Lemma long_time_counts n : arrived (long_time n) = [] /\ blanks (long_time n) = Z.of_nat n /\ turns (long_time n) = (10 * n)%nat.
Proof.
  unfold long_time. induction n as [|n (A & B & C)]; [auto|]. cbn [repeat concat]. split; [exact A|].
  split; [change (blanks (one_frame ++ concat (repeat one_frame n))) with (1 + blanks (concat (repeat one_frame n))); lia|].
  change (turns (one_frame ++ concat (repeat one_frame n))) with (10 + turns (concat (repeat one_frame n)))%nat. lia.
Qed.
Lemma half_stalls n : exists l rest evs more m tr m' tr', Forall msg_ok l /\ arrived evs ++ rest = stream l /\ arrived more = [] /\
  blanks more = Z.of_nat n /\ turns more = (10 * n)%nat /\ runs evs m tr /\ at_rest m /\ chip_att att_at_boot tr 0 <> 15 /\
  runs (evs ++ more) m' tr' /\ tr' = tr /\ mc_app m' = mc_app m.
Proof.
  destruct half_example as (Ho & He & Hl & Ha & Hn & m & tr & H & Hr & Hc & K). destruct (long_time_counts n) as (A & B & C).
  assert (Ha' : arrived (half_evs ++ long_time n) ++ [100] = stream [NoteOn 6 69 100; NoteOn 0 60 100]) by (rewrite arrived_app, A, app_nil_r; reflexivity).
  assert (Hc' : Forall calm (meanings [] [NoteOn 6 69 100; NoteOn 0 60 100])).
  { repeat apply Forall_cons; try apply Forall_nil; (split; [not_such|unfold odd_envelope; not_such]). }
  destruct (machine_total (shipped false) no_cartridge blank_memory empty_buffer (half_evs ++ long_time n) _ _ (shipped_ok false) blank_memory_ok
    ltac:(cbn; lia) Hl Hc' Ha' (overrun_quiet _ _ _ _ _ _ Hn A)) as (m' & tr' & H').
  destruct (machine_stalls _ _ _ _ _ _ _ _ _ _ _ _ _ _ H H' Hl Ho He ltac:(discriminate) ltac:(discriminate) Ha Hn Hr Hc A) as (E1 & E2).
  exists [NoteOn 6 69 100; NoteOn 0 60 100], [100], half_evs, (long_time n), m, tr, m', tr'.
  split; [exact Hl|]. split; [reflexivity|]. auto 12.
Qed.

(** The hypotheses of the statements about delivery, for the middle of the run: two bytes
    of the FM note have arrived, one has been read. *)
Definition cut_evs : list mevent := trickle (NoteOn 6 69 100) ++ [BArrive 0x90; BArrive 60; BMain].
Lemma cut_example : arrived cut_evs ++ [100] = stream [NoteOn 6 69 100; NoteOn 0 60 100] /\ bucket_within 500 0 (cut_evs ++ repeat BMain 10) /\
  Forall calm (meanings [] [NoteOn 6 69 100; NoteOn 0 60 100]) /\ no_overrun (shipped false) no_cartridge blank_memory empty_buffer cut_evs /\
  exists m tr, runs cut_evs m tr /\ at_rest m /\ ~ caught_up m.
Proof.
  split; [reflexivity|]. split; [apply bucketb_ok; reflexivity|].
  split; [repeat apply Forall_cons; try apply Forall_nil; (split; [not_such|unfold odd_envelope; not_such])|]. split; [apply machine_room; vm_compute; reflexivity|].
  destruct (machine_see cut_evs (fun m _ => place m) (true, true, 0)) as (m & tr & H & E); [vm_compute; reflexivity|].
  unfold place in E. injection E as E1 E2 E3. exists m, tr. split; [exact H|]. split; [exact (restb_ok _ E1)|]. unfold caught_up. congruence.
Qed.
