(** Model of the start-up of the network transport: comm/comm_megawifi.c:75-195, the
    answers of the MegaWiFi library being arbitrary, and of the poll's guard in lines
    334-338; memcmp of utils.c:18-29 besides.
    Simplified: scheduler_yield (a round of the main loop in between) is an event only;
    the text of log messages is abstracted to what it tells. *)
From Verif Require Import Base IpUtilModel AppleModel NetModel.

(** What the library answers; error codes are integers, 0 is MW_ERR_NONE. *)
Record answers := mkAnswers {
  an_uart : bool;       (* mw_uart_is_present *)
  an_init : Z;          (* mw_init *)
  an_detect : Z;        (* mw_detect *)
  an_version : Z * Z;
  an_def_ap : Z;        (* mw_def_ap_cfg_get, negative on errors *)
  an_assoc : Z;         (* mw_ap_assoc *)
  an_wait : Z;          (* mw_ap_assoc_wait *)
  an_ip : Z;            (* mw_ip_current *)
  an_addr : Z;
  an_udp : Z -> Z       (* mw_udp_set, by channel *)
}.

Inductive sev :=
(* calls of the library *)
| SInit | STask | SDetect | SGetAp | SAssoc (ap : Z) | SAssocWait (frames : Z) | SGetIp | SUdp (ch : Z) (port : list Z)
(* a round of the main loop *)
| SYield
(* log messages *)
| LDetecting | LFound (major minor : Z) | LListening (addr : list Z) (port : Z)
| LInitError (e : Z) | LNotFound | LNoIp | LNoUdp (port : list Z).

Definition MW_ERR_NONE : Z := 0.
Definition UDP_CONTROL_PORT : Z := 5006.
Definition UDP_MIDI_PORT : Z := UDP_CONTROL_PORT + 1.
(** MS_TO_FRAMES, comm/comm_megawifi.c:18 *)
Definition MS_TO_FRAMES (ms : Z) : Z := (ms * 60 / 500 + 1) / 2.

(** sprintf of "%u": the decimal digits of a number below 100000. *)
Fixpoint print_u (fuel : nat) (n : Z) : list Z :=
  match fuel with O => [] | S fuel => (if n <? 10 then [] else print_u fuel (n / 10)) ++ [48 + n mod 10] end.

(** associate_ap, comm/comm_megawifi.c:94-108 *)
Definition associate_ap (a : answers) : list sev * Z :=
  let ap := if an_def_ap a <? 0 then 0 else an_def_ap a in
  let o := [SGetAp; SAssoc ap] in
  if negb (an_assoc a =? MW_ERR_NONE) then (o, an_assoc a)
  else (o ++ [SAssocWait (MS_TO_FRAMES 20000)], if negb (an_wait a =? MW_ERR_NONE) then an_wait a else MW_ERR_NONE).

(** detect_mw, comm/comm_megawifi.c:121-135 *)
Definition detect_mw (a : answers) : list sev * bool :=
  if negb (an_detect a =? MW_ERR_NONE) then ([LDetecting; SDetect; LNotFound], false)
  else ([LDetecting; SDetect; LFound (fst (an_version a)) (snd (an_version a)); SYield], true).

(** listen_on_udp_port, comm/comm_megawifi.c:137-146 *)
Definition listen_on_udp_port (ch port : Z) (a : answers) : list sev * Z :=
  let str := print_u 5 port in
  ([SUdp ch str] ++ (if negb (an_udp a ch =? MW_ERR_NONE) then [LNoUdp str] else []), an_udp a ch).

(** init_mega_wifi with get_local_ip and tasking_init, comm/comm_megawifi.c:110-119, 155-195: what it does, and [listening]. *)
Definition init_mega_wifi (a : answers) : list sev * bool :=
  if negb (an_init a =? MW_ERR_NONE) then ([SInit; LInitError (an_init a)], false)
  else
    let '(o1, found) := detect_mw a in
    if negb found then ([SInit; STask] ++ o1, false)
    else
      let '(o2, _) := associate_ap a in
      let o := [SInit; STask] ++ o1 ++ [SYield] ++ o2 ++ [SGetIp] in
      if negb (an_ip a =? MW_ERR_NONE) then (o ++ [LNoIp], false)
      else
        let '(o3, e3) := listen_on_udp_port CH_CONTROL_PORT UDP_CONTROL_PORT a in
        if negb (e3 =? MW_ERR_NONE) then (o ++ o3, false)
        else
          let '(o4, e4) := listen_on_udp_port CH_MIDI_PORT UDP_MIDI_PORT a in
          if negb (e4 =? MW_ERR_NONE) then (o ++ o3 ++ o4, false)
          else (o ++ o3 ++ o4 ++ [LListening (uint32_to_ip_str (an_addr a)) UDP_CONTROL_PORT; SYield], true).

(** comm_megawifi_init, comm/comm_megawifi.c:78-83 *)
Definition start_network (a : answers) : list sev * bool :=
  if an_uart a then let '(o, l) := init_mega_wifi a in (SYield :: o, l) else ([SYield], false).

(** comm_megawifi_tick, comm/comm_megawifi.c:334-338. Without listening no request is made of
    the library, so it has nothing to call back for, in the poll or in the background
    task (lines 148-153). *)
Definition guarded_step (listening : bool) (op : nop) : N unit :=
  match op with NTick _ _ _ => if listening then net_step op else nret tt | _ => net_step op end.
Fixpoint guarded_run (listening : bool) (ops : list nop) : N unit :=
  match ops with [] => nret tt | op :: ops => nthen (guarded_step listening op) (guarded_run listening ops) end.

(** memcmp, utils.c:18-29; [None]: a read behind one of the regions. *)
Fixpoint memcmp (s1 s2 : list Z) (count : nat) {struct count} : option Z :=
  match count with
  | O => Some 0
  | S count =>
      match s1, s2 with
      | a :: s1, b :: s2 => if negb (a =? b) then Some (if a <? b then -1 else 1) else memcmp s1 s2 count
      | _, _ => None
      end
  end.
