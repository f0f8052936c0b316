(** Common definitions: fixed-width integers, checked arrays, and the
    state/fault/trace monad in which the C functions are transcribed. *)
From Coq Require Export ZArith List Lia Bool.
From Coq Require Export ZifyBool ZifyNat.
Export ListNotations.
Global Open Scope Z_scope.

(** ** Fixed-width integers (SGDK types.h: u8, s8, u16, s16, u32, s32) *)
Definition u8 (x : Z) : Z := x mod 256.
Definition s8 (x : Z) : Z := (x + 128) mod 256 - 128.
Definition u16 (x : Z) : Z := x mod 65536.
Definition s16 (x : Z) : Z := (x + 32768) mod 65536 - 32768.
Definition u32 (x : Z) : Z := x mod 4294967296.

(** Store into an unsigned bit-field of [n] bits. *)
Definition bits (n x : Z) : Z := x mod 2 ^ n.

(** C boolean as stored in a [bool] object / used as an int. *)
Definition b2z (b : bool) : Z := if b then 1 else 0.

(** ** Checked arrays: lists indexed by [Z]. *)
Definition zget {A} (l : list A) (i : Z) : option A :=
  if i <? 0 then None else nth_error l (Z.to_nat i).

Fixpoint upd {A} (l : list A) (n : nat) (x : A) : list A :=
  match l, n with
  | [], _ => []
  | _ :: t, O => x :: t
  | h :: t, S n' => h :: upd t n' x
  end.

(** [zset] is only ever used after a successful [zget] at the same index. *)
Definition zset {A} (l : list A) (i : Z) (x : A) : list A :=
  if i <? 0 then l else upd l (Z.to_nat i) x.

Fixpoint zseq (a : Z) (n : nat) : list Z :=
  match n with O => [] | S n' => a :: zseq (a + 1) n' end.

(** ** Faults: undefined behaviour and fatal stops, as distinct outcomes. *)
Inductive fault : Type :=
| F_oob        (* array index out of bounds *)
| F_null       (* null pointer dereference *)
| F_die        (* SYS_die: fatal message, program stops *)
| F_hang       (* unbounded busy loop / recursion *)
| F_pcm        (* percussion PCM sample table indexed out of bounds (midi_dac.c) *)
| F_uninit.    (* read of an uninitialised object *)

(** ** Observable events, in program order. *)
Inductive event : Type :=
| EvYm (part reg data : Z)          (* YM2612_writeReg *)
| EvYmLatch (port data : Z)         (* YM2612_write: raw port write *)
| EvPsgTone (chan tone : Z)         (* PSG_setTone *)
| EvPsgAtt (chan att : Z)           (* PSG_setEnvelope *)
| EvZ80Load (pcm : bool)            (* Z80_loadDriver(PCM or NULL) *)
| EvZ80Req                          (* Z80_requestBus / taking part of getAndRequestBus *)
| EvZ80Rel                          (* Z80_releaseBus *)
| EvPcmStart (sample : Z)           (* SND_PCM_startPlay with the sample's id *)
| EvPcmStop                         (* SND_PCM_stopPlay *)
| EvTx (byte : Z)                   (* comm_write of one byte *)
| EvParam (chan kind : Z)           (* synth parameter callback (0 Channel, 1 Lfo, 2 SpecialMode) *)
| EvMidiChange (kind chan key value : Z) (* midi change callback (1 Program, 2 CC) *)
| EvUi (kind value : Z)             (* calls into ui_fm (show/hide parameters) *)
| EvSramWrite (addr val : Z).       (* one SRAM byte written (SRAMW_...) *)

(** ** The monad *)
Inductive res (S A : Type) : Type :=
| Done (a : A) (s : S) (o : list event)
| Fault (f : fault).
Arguments Done {S A}. Arguments Fault {S A}.

Definition M (S A : Type) : Type := S -> res S A.

Definition ret {S A} (a : A) : M S A := fun s => Done a s [].
Definition fail {S A} (f : fault) : M S A := fun _ => Fault f.
Definition bind {S A B} (m : M S A) (k : A -> M S B) : M S B := fun s =>
  match m s with
  | Fault f => Fault f
  | Done a s1 o1 =>
      match k a s1 with
      | Fault f => Fault f
      | Done b s2 o2 => Done b s2 (o1 ++ o2)
      end
  end.
Definition get {S} : M S S := fun s => Done s s [].
Definition gets {S A} (f : S -> A) : M S A := fun s => Done (f s) s [].
Definition put {S} (s' : S) : M S unit := fun _ => Done tt s' [].
Definition modify {S} (f : S -> S) : M S unit := fun s => Done tt (f s) [].
Definition emit {S} (e : event) : M S unit := fun s => Done tt s [e].

Declare Scope m_scope.
Delimit Scope m_scope with m.
Notation "x <- c1 ;; c2" := (bind c1 (fun x => c2))
  (at level 61, c1 at next level, right associativity) : m_scope.
Notation "c1 ;; c2" := (bind c1 (fun _ => c2))
  (at level 61, right associativity) : m_scope.
Global Open Scope m_scope.

Definition when {S} (b : bool) (m : M S unit) : M S unit := if b then m else ret tt.

(** Checked array read / update. *)
Definition rd {S A} (l : list A) (i : Z) : M S A :=
  match zget l i with Some x => ret x | None => fail F_oob end.

Fixpoint forM {S A} (l : list A) (f : A -> M S unit) : M S unit :=
  match l with
  | [] => ret tt
  | x :: t => f x ;; forM t f
  end.

(** Running a sub-state computation inside a larger state. *)
Definition lift {S T A} (g : S -> T) (p : S -> T -> S) (m : M T A) : M S A := fun s =>
  match m (g s) with
  | Fault f => Fault f
  | Done a t o => Done a (p s t) o
  end.

(** Iterating a step over a list of operations (a history). *)
Fixpoint runM {S Op} (step : Op -> M S unit) (ops : list Op) : M S unit :=
  match ops with
  | [] => ret tt
  | o :: t => step o ;; runM step t
  end.

Global Arguments Z.add : simpl never.
Global Arguments Z.sub : simpl never.
Global Arguments Z.mul : simpl never.
Global Arguments Z.div : simpl never.
Global Arguments Z.modulo : simpl never.
Global Arguments Z.quot : simpl never.
Global Arguments Z.rem : simpl never.
Global Arguments Z.pow : simpl never.
Global Arguments Z.shiftl : simpl never.
Global Arguments Z.shiftr : simpl never.
Global Arguments Z.lor : simpl never.
Global Arguments Z.land : simpl never.
Global Arguments Z.lxor : simpl never.
Global Arguments Z.eqb : simpl never.
Global Arguments Z.ltb : simpl never.
Global Arguments Z.leb : simpl never.
Global Arguments Z.gtb : simpl never.
Global Arguments Z.geb : simpl never.
Global Arguments Z.opp : simpl never.
Global Arguments Z.to_nat : simpl never.
Global Arguments u8 : simpl never.
Global Arguments s8 : simpl never.
Global Arguments u16 : simpl never.
Global Arguments s16 : simpl never.
Global Arguments u32 : simpl never.
Global Arguments bits : simpl never.
Global Arguments zget : simpl never.
Global Arguments zset : simpl never.
Global Arguments Nat.ltb : simpl never.
Global Arguments Nat.leb : simpl never.
