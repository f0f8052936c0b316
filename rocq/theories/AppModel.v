(** Model of src/main.c: the MIDI layer on top of the sound layers, from
    power-on.  Not modelled here: the screen (UiModel.v) and the transports
    (CommModel.v, SerialModel.v, RxModel.v). *)
From Verif Require Import Base SynthModel PsgModel MidiModel RxModel DevModel.

(** What the cartridge registers read at power-on: REG_STE of an EverDrive X7
    (0xA130E4) and REG_SYS_STAT of an EverDrive PRO (0xA130D4). *)
Record hardware := mkHw { hw_ste : Z; hw_stat : Z }.

(** comm_everdrive.c:13, comm_everdrive_pro.c:14: [is_present] of both. *)
Record app := mkApp { a_midi : midi; a_dev : devst; a_x7 : bool; a_pro : bool }.

Section App.
Context (r : rom).

(** Flags seen by sram_init, sram.c:40-46. *)
Definition detected (s : app) : bool := a_pro s || a_x7 s.

(** A function of midi.c: its calls to the sound layers are performed in order.
    (The sound layers never call midi.c, so computing the new state of midi.c
    first is the same thing.) *)
Definition app_midi (f : midi -> wres midi) : M app unit := fun s =>
  match f (a_midi s) with
  | WFault e => Fault e
  | WDone m calls =>
      match perform_all r (detected s) calls (a_dev s) with
      | Fault e => Fault e
      | Done _ d o => Done tt (mkApp m d (a_x7 s) (a_pro s)) o
      end
  end.
Definition app_dev (m : M devst unit) : M app unit :=
  lift a_dev (fun s d => mkApp (a_midi s) d (a_x7 s) (a_pro s)) m.

(** ** Running *)
(** A received message, or the frame handlers of one frame: midi_psg_tick
    (midi_psg.c:62) is registered before midi_tick (midi.c:115). *)
Inductive aop : Type := AMsg (op : mop) | AFrame.
Definition app_step (op : aop) : M app unit :=
  match op with
  | AMsg m => app_midi (midi_step m)
  | AFrame => app_dev (ps r PTick) ;; app_midi (midi_step MTick)
  end.
Definition app_run : list aop -> M app unit := runM app_step.

(** ** Power-on, main.c:18-31 *)
(** comm_everdrive.c:30-31 (u8 status), comm_everdrive_pro.c:72 *)
Definition x7_detected (hw : hardware) : bool :=
  let status := u8 (Z.shiftr (hw_ste hw) 8) in (status =? 0x00) || (status =? 0x40).
Definition pro_detected (hw : hardware) : bool := Z.land (hw_stat hw) 0xFFF0 =? 0x55A0.
(** comm.c:62-67: the X7 and PRO transports are initialised. *)
Definition comm_init (hw : hardware) : M app unit :=
  modify (fun s => mkApp (a_midi s) (a_dev s) (x7_detected hw) (pro_detected hw)).
(** ui.c:122, ui_fm.c:114: the change callbacks are registered. *)
Definition ui_init : M app unit := app_midi (midi_step (MCallback true)) ;; app_dev (syn (SCallback true)).
(** main.c:29 *)
Definition startup (seq : list Z) : M app unit :=
  match run_startup_sequence seq with
  | Failed f => fail f
  | Ran ops _ => app_run (map AMsg ops)
  end.

Definition app_main (hw : hardware) (seq : list Z) : M app unit :=
  app_midi midi_init ;; ui_init ;; comm_init hw ;; startup seq.
End App.

(** Zero-initialised statics; the SRAM holds [mem]. *)
Definition app0 (mem : list Z) : app := mkApp midi0 (devst0 mem) false false.

(** Power-on of a machine with the cartridge [hw] and SRAM contents [mem],
    then a history. *)
Definition app_boot (r : rom) (hw : hardware) (mem : list Z) (ops : list aop) : res app unit :=
  (app_main r hw STARTUP_MIDI_SEQUENCE ;; app_run r ops) (app0 mem).
