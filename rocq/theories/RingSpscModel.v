(** comm/ring_buf.c at the granularity of individual memory accesses: one
    producer (the serial receive interrupt, comm_serial.c:26-42) and one
    consumer (the main loop, comm_serial.c:67-91), interleaved arbitrarily.
    An interrupt that runs to completion is the special case in which the
    producer's accesses are contiguous. *)
From Verif Require Import Base RingBufModel.

Record shared := mkSh { sh_buf : list Z; sh_tail : Z; sh_head : Z; sh_size : Z }.

(** Program counter of ring_buf_write (comm/ring_buf.c:29-43); [ringBuf] and
    [size] are never modified after initialisation. *)
Inductive ppc :=
| PIdle
| PLoadHead (d : Z)               (* line 35: load head, compute nextHead *)
| PLoadTail (d nh : Z)            (* line 36: load tail, compare *)
| PLoadHead2 (d nh : Z)           (* line 40: load head for the index *)
| PStoreBuf (d nh h : Z)          (* line 40: store the byte *)
| PStoreHead (d nh : Z).          (* line 41: store head; return OK *)

(** Program counter of ring_buf_read (comm/ring_buf.c:14-27) and of
    ring_buf_can_read (45-51). C leaves the evaluation order of
    [rb->tail == rb->head] unspecified: [ord] selects it. *)
Inductive cpc :=
| CIdle
| CCmp1 (query ord : bool)                 (* line 20 / 50: first operand *)
| CCmp2 (query ord : bool) (v : Z)         (* second operand, compare *)
| CLoadTail                                (* line 24: load tail for the index *)
| CLoadBuf (t : Z)                         (* line 24: load the byte *)
| CLoadTail2 (d : Z)                       (* line 25: load tail *)
| CStoreTail (d t : Z).                    (* line 25: store tail; return OK *)

(** ring_buf_available (comm/ring_buf.c:53-67) is modelled separately below. *)

Record sys := mkSys { y_sh : shared; y_p : ppc; y_c : cpc }.

(** What the callers observe. *)
Inductive obs :=
| ORetW (d : Z) (st : rb_status)      (* ring_buf_write d returned st *)
| ORetR (st : rb_status) (d : option Z) (* ring_buf_read returned *)
| ORetQ (b : bool).                   (* ring_buf_can_read returned *)

(** Scheduler choices: start a call or perform the next memory access. *)
Inductive lbl := LStartW (d : Z) | LStepW | LStartR (query ord : bool) | LStepR.

Definition step_p (sh : shared) (p : ppc) : option (shared * ppc * list obs) :=
  match p with
  | PIdle => None
  | PLoadHead d => Some (sh, PLoadTail d (u16 (Z.rem (sh_head sh + 1) (sh_size sh))), [])
  | PLoadTail d nh =>
      if nh =? sh_tail sh then Some (sh, PIdle, [ORetW d RB_FULL])
      else Some (sh, PLoadHead2 d nh, [])
  | PLoadHead2 d nh => Some (sh, PStoreBuf d nh (sh_head sh), [])
  | PStoreBuf d nh h =>
      match zget (sh_buf sh) h with
      | None => None  (* out of bounds: stuck, excluded by [spsc_never_stuck] *)
      | Some _ => Some (mkSh (zset (sh_buf sh) h d) (sh_tail sh) (sh_head sh) (sh_size sh),
                        PStoreHead d nh, [])
      end
  | PStoreHead d nh =>
      Some (mkSh (sh_buf sh) (sh_tail sh) nh (sh_size sh), PIdle, [ORetW d RB_OK])
  end.

Definition step_c (sh : shared) (c : cpc) : option (shared * cpc * list obs) :=
  match c with
  | CIdle => None
  | CCmp1 q ord => Some (sh, CCmp2 q ord (if ord then sh_tail sh else sh_head sh), [])
  | CCmp2 q ord v =>
      let w := if ord then sh_head sh else sh_tail sh in
      if q then Some (sh, CIdle, [ORetQ (negb (v =? w))])
      else if v =? w then Some (sh, CIdle, [ORetR RB_EMPTY None])
      else Some (sh, CLoadTail, [])
  | CLoadTail => Some (sh, CLoadBuf (sh_tail sh), [])
  | CLoadBuf t =>
      match zget (sh_buf sh) t with
      | None => None  (* out of bounds *)
      | Some d => Some (sh, CLoadTail2 d, [])
      end
  | CLoadTail2 d => Some (sh, CStoreTail d (sh_tail sh), [])
  | CStoreTail d t =>
      Some (mkSh (sh_buf sh) (u16 (Z.rem (t + 1) (sh_size sh))) (sh_head sh) (sh_size sh),
            CIdle, [ORetR RB_OK (Some d)])
  end.

Definition sys_step (s : sys) (l : lbl) : option (sys * list obs) :=
  match l with
  | LStartW d => match y_p s with
                 | PIdle => Some (mkSys (y_sh s) (PLoadHead d) (y_c s), [])
                 | _ => None
                 end
  | LStartR q ord => match y_c s with
                 | CIdle => Some (mkSys (y_sh s) (y_p s) (CCmp1 q ord), [])
                 | _ => None
                 end
  | LStepW => match step_p (y_sh s) (y_p s) with
              | Some (sh, p, o) => Some (mkSys sh p (y_c s), o)
              | None => None
              end
  | LStepR => match step_c (y_sh s) (y_c s) with
              | Some (sh, c, o) => Some (mkSys sh (y_p s) c, o)
              | None => None
              end
  end.

Fixpoint sys_run (s : sys) (ls : list lbl) : option (sys * list obs) :=
  match ls with
  | [] => Some (s, [])
  | l :: t => match sys_step s l with
              | None => None
              | Some (s1, o1) => match sys_run s1 t with
                                 | None => None
                                 | Some (s2, o2) => Some (s2, o1 ++ o2)
                                 end
              end
  end.

(** After ring_buf_init, comm/ring_buf.c:3-12. *)
Definition sys_init (arr : list Z) (n : Z) : sys := mkSys (mkSh arr 0 0 n) PIdle CIdle.

(** ring_buf_available, comm/ring_buf.c:53-67, evaluated by the consumer with
    the producer running in between: the successive loads of [head] (the
    consumer's own [tail] is stable) are [h1] at line 60, [h2] at line 62 and
    [h3] at line 63 or 65. *)
Definition available_loads (size tail h1 h2 h3 : Z) : Z :=
  let capacity := u16 (size - 1) in
  if tail =? h1 then capacity
  else if tail <? h2 then u16 (capacity - (h3 - tail))
  else u16 (tail - h3 - 1).
