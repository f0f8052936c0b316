(** Chords in dynamic mode. *)
From Verif Require Import Base MidiModel MidiSpec SoundSpec AppModel AppSpec.

(** Messages that ask for dynamic mode: SysEx command 3, polyphonic mode (controller 84),
    or, at power-on, a General MIDI reset. *)
Definition asks_dynamic (m : mop) : Prop :=
  (exists a, m = own_sysex 3 [a] /\ a <> 0) \/ (exists c v, m = MCc c 84 v /\ 64 <= v) \/ gm_reset_msg m.

(** Which voices each MIDI channel may use, as controller 86 selects them: 0 for FM and
    the PSG tones, 1 for FM, 2 for the PSG tones, 3 for the noise; and how many they are.
    Percussion (MIDI channel 10) uses FM channels only. *)
Definition group_after (g : Z -> Z) (m : mop) : Z -> Z :=
  match m with MCc c k v => if k =? 86 then set_at g c (v / 32) else g | _ => g end.
Definition group (ms : list mop) : Z -> Z := fold_left group_after ms (fun _ => 0).
Definition voices (c g : Z) : nat :=
  if c =? 9 then (if (g =? 0) || (g =? 1) then 6 else 0)
  else if g =? 0 then 9 else if g =? 1 then 6 else if g =? 2 then 3 else 1.

(** Playing after the messages [ms]: a further key while a voice is left for it, at a pitch
    the FM chip has, of percussion while less than two are held; releases; bends; programs, levels, sides and voice groups; frames. *)
Definition chord_msg (ms : list mop) (m : mop) : Prop :=
  match m with
  | MNoteOn c k v => v = 0 \/ ((c = 9 -> (length (filter (fun x => (fst x =? 9)%Z) (held ms)) < 2)%nat) /\
      ~ In (c, k) (held ms) /\ (length (held ms) < voices c (group ms c))%nat /\
      0 <= bent ms c k /\ 0 <= pitched ms c k /\ 11 <= pitched ms c k / 100 <= 106)
  | MCc _ k _ => k = 7 \/ k = 10 \/ k = 86
  | MNoteOff _ _ | MProgram _ _ | MBend _ _ | MTick => True
  | _ => False
  end.
Definition chords (start : mop) (play : list aop) : Prop :=
  forall a op b, play = a ++ op :: b -> chord_msg (start :: map message a) (message op).

(** The velocity each key was last struck with. *)
Definition struck_after (f : Z * Z -> Z) (m : mop) : Z * Z -> Z :=
  match m with MNoteOn c k v => if v =? 0 then f else fun x => if (fst x =? c) && (snd x =? k) then v else f x | _ => f end.
Definition struck (ms : list mop) : Z * Z -> Z := fold_left struck_after ms (fun _ => 0).

(** Keys pressed only on channels that select FM, with no square wave program. *)
Definition fm_only (start : mop) (play : list aop) : Prop :=
  forall a c k v b, play = a ++ AMsg (MNoteOn c k v) :: b -> v <> 0 ->
  group (start :: map message a) c = 1 /\ ~ In (st_prog (settings (start :: map message a) c)) [80; 89; 99].

(** Program changes and bends of the drum channel only while no drum is held. *)
Definition steady_drums (start : mop) (play : list aop) : Prop :=
  forall a op b x, play = a ++ op :: b -> message op = MProgram 9 x \/ message op = MBend 9 x -> forall k, ~ In (9, k) (held (start :: map message a)).

(** The same with portamento switched on or off on the way. *)
Definition gliding_chords (start : mop) (play : list aop) : Prop :=
  forall a op b, play = a ++ op :: b -> chord_msg (start :: map message a) (message op) \/ is_cc 65 (message op).
