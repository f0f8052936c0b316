(** The assignment of device channels to MIDI channels that the user asked for, read off
    the messages alone. *)
From Verif Require Import Base MidiModel MidiSpec.

(** Device channel [k] is given MIDI channel [c]. *)
Definition give (f : Z -> Z) (k c : Z) : Z -> Z := fun i => if i =? k then c else f i.
(** SysEx command 0 [c; k] gives device channel [k] to MIDI channel [c]; [c] = 127 stands
    for no MIDI channel; [k] = 127 takes the first device channel of [c] away.  System
    Reset and Reset All Controllers restore the assignment of power-on. *)
Definition reassign (f : Z -> Z) (op : mop) : Z -> Z :=
  match op with
  | MReset => fun i => i
  | MCc _ k _ => if k =? 121 then fun i => i else f
  | MSysex [x; y; z; w; c; k] =>
      if (x =? 0x00) && (y =? 0x22) && (z =? 0x77) && (w =? 0x00) && ((c <? 16) || (c =? 127)) then
        if k =? 127 then match find (fun i => f i =? c) [0; 1; 2; 3; 4; 5; 6; 7; 8; 9; 10; 11; 12] with Some i => give f i 127 | None => f end
        else if k <? 13 then give f k c else f
      else f
  | _ => f
  end.
Definition assigned (ops : list mop) : Z -> Z := fold_left reassign ops (fun i => i).
(** Requests for, or against, dynamic assignment. *)
Definition asks_mode (op : mop) : Prop := is_cc 84 op \/ is_sysex_cmd 3 op \/ gm_reset_msg op.
(** [k] is the only device channel of MIDI channel [c]. *)
Definition only (f : Z -> Z) (c k : Z) : Prop := forall i, 0 <= i < 13 -> (f i = c <-> i = k).
