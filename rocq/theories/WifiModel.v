(** Model of the running interface on a cartridge with MegaWiFi, once listening and
    with the network as the transport in use: the main loop of main.c:31 and
    scheduler.c:60-74 with its two tick handlers in the order of registration
    (comm_megawifi_tick, comm/comm_megawifi.c:75, from comm_init; then
    midi_rx_read_if_comm_ready, midi_rx.c:46-56), the frame handlers, everything the
    received messages do (AppModel.v) and what they send back (NetModel.v).
    Simplified: no other transport has data, so comm/comm.c:76-119 serves the network
    directly; the library's callbacks come during mw_process (NetModel.v); of the
    frame handlers midi_psg_tick, midi_tick and comm_megawifi_vsync act (MachineModel.v);
    at what moment of the main loop the frame handlers run, and with what number of
    frames, is left open. *)
From Verif Require Import Base MidiModel RxModel DevModel AppModel MachineModel NetModel.

(** [w_rx]: inside a message, what the reader does with the next byte. *)
Record wifi := mkWifi { w_app : app; w_net : net; w_rx : rx }.

(** Register writes and other effects of the interface, and the traffic with the
    network, each in its order. *)
Inductive wres := WfDone (s : wifi) (out : list event) (radio : list nev) | WfFault (f : fault).
Definition wf_bind (x : wres) (k : wifi -> wres) : wres :=
  match x with
  | WfFault f => WfFault f
  | WfDone s o n => match k s with WfFault f => WfFault f | WfDone s' o' n' => WfDone s' (o ++ o') (n ++ n') end
  end.
Definition on_net (m : N unit) (s : wifi) : wres :=
  match m (w_net s) with NFault f => WfFault f | NDone _ n o => WfDone (mkWifi (w_app s) n (w_rx s)) [] o end.

(** A pass of scheduler_tick up to line 62; one call of on_frame (lines 63-65). *)
Inductive wevent := WTick (cbs : list callback) (send_ok recv_ok : bool) | WFrame (delta : Z).

(** midi_tx.c:5-15, comm/comm.c:114-119: the bytes one message sends back go out in
    one write (comm_megawifi_write_ready is always true). *)
Definition outgoing (o : list event) : list Z := flat_map (fun e => match e with EvTx b => [b] | _ => [] end) o.
Definition send_back (o : list event) : N unit := match outgoing o with [] => nret tt | d => net_write d end.

Section Wifi.
Context (r : rom).

(** One entry of midi.c, AppModel.app_step, with what it sends back. *)
Definition w_perform (op : aop) (s : wifi) : wres :=
  match app_step r op (w_app s) with
  | Fault f => WfFault f
  | Done _ a o => wf_bind (WfDone (mkWifi a (w_net s) (w_rx s)) o []) (on_net (send_back o))
  end.
Fixpoint w_performs (ops : list aop) (s : wifi) : wres :=
  match ops with [] => WfDone s [] [] | op :: ops => wf_bind (w_perform op s) (w_performs ops) end.

(** midi_rx_read_if_comm_ready, midi_rx.c:51-56, with comm_read, comm/comm.c:96-104:
    as long as a byte is ready it is read and decoded.  Without one the loop is left
    between messages; inside one comm_read waits (see [w_step]).  [fuel] bounds the
    bytes of the ring. *)
Fixpoint w_drain (fuel : nat) (s : wifi) : wres :=
  if net_read_ready (w_net s) then
    match fuel with
    | O => WfFault F_hang
    | S fuel =>
        match net_read (w_net s) with
        | NFault f => WfFault f
        | NDone b n o =>
            match rx_byte (reset_action STARTUP_MIDI_SEQUENCE) (w_rx s) b with
            | Failed f => WfFault f
            | Ran ms st => wf_bind (wf_bind (WfDone (mkWifi (w_app s) n st) [] o) (w_performs (map AMsg ms))) (w_drain fuel)
            end
        end
    end
  else WfDone s [] [].

(** A reader left inside a message is in the loop of comm/comm.c:98-99.  It asks
    comm_megawifi_read_ready, which looks at the ring; only comm_megawifi_tick puts
    bytes into the ring, and nothing calls it from that loop. *)
Definition waiting (s : wifi) : bool := match w_rx s with None => false | Some _ => true end.

Definition w_step (e : wevent) (s : wifi) : wres :=
  if waiting s then WfDone s [] []
  else match e with
       | WTick cbs a b => wf_bind (on_net (net_tick cbs a b) s) (w_drain (Z.to_nat MW_RX_TX_BUFFER_SIZE))
       | WFrame d => wf_bind (w_perform AFrame s) (on_net (net_vsync d))
       end.
Fixpoint w_run (evs : list wevent) (s : wifi) : wres :=
  match evs with [] => WfDone s [] [] | e :: evs => wf_bind (w_step e s) (w_run evs) end.
End Wifi.

(** main.c:14-30 with a successful comm_megawifi_init: [a] is the interface as
    AppModel.app_boot leaves it. *)
Definition wifi_start (a : app) : wifi := mkWifi a net_boot None.
