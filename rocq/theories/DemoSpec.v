(** Demo mode, seen from its output. *)
From Verif Require Import Base MidiModel DemoModel.

Definition playable (op : mop) : Prop :=
  match op with
  | MNoteOn c p v => c = 0 /\ 11 <= p <= 106 /\ v = 127
  | MNoteOff c p => c = 0 /\ 11 <= p <= 106
  | MProgram c g => c = 0 /\ 0 <= g < 128
  | MCc c k v => c = 0 /\ k = 83 /\ v = 127
  | _ => False
  end.

(** The note that sounds; a note on while another sounds is a violation. *)
Fixpoint one_note (sounding : option Z) (l : list mop) : option (option Z) :=
  match l with
  | [] => Some sounding
  | MNoteOn _ p _ :: t => match sounding with None => one_note (Some p) t | Some _ => None end
  | MNoteOff _ p :: t =>
      one_note (match sounding with Some q => if p =? q then None else sounding | None => None end) t
  | _ :: t => one_note sounding t
  end.

(** A direction pad cannot be pressed both ways at once. *)
Definition held (joy mask : Z) : bool := negb (Z.land joy mask =? 0).
Definition pad_ok (joy : Z) : Prop :=
  (held joy BUTTON_UP && held joy BUTTON_DOWN = false) /\ (held joy BUTTON_LEFT && held joy BUTTON_RIGHT = false).
Definition turn_ok (t : turn) : Prop := match t with Turn _ _ joy => pad_ok joy end.
