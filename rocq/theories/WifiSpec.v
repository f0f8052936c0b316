(** What the interface on the network is asked to do, from the datagrams alone. *)
From Verif Require Import Base MidiModel MidiSpec RxModel RxSpec DevModel DevSpec AppModel AppSpec MachineSpec NetModel NetSpec WifiModel.
From Verif Require RtpSpec.

Definition wev_ok (e : wevent) : Prop :=
  match e with WTick cbs _ _ => Forall callback_ok cbs | WFrame d => 0 <= d < 65536 end.

(** [evs] leads from power-on to [s], with output [out] and network traffic [radio]. *)
Definition on_air (r : rom) (hw : hardware) (mem : list Z) (evs : list wevent) (s : wifi) (out : list event) (radio : list nev) : Prop :=
  rom_ok r /\ mem_ok mem /\ Forall wev_ok evs /\
  exists a oa ob, app_boot r hw mem [] = Done tt a oa /\ w_run r evs (wifi_start a) = WfDone s ob radio /\ out = oa ++ ob.

(** ** The messages of a datagram *)
(** Session packets and other ports bring none; an RTP-MIDI packet brings its commands.
    (Only packets the parser copes with, RtpSpec.handled.) *)
Inductive brings : Z -> list Z -> list msg -> Prop :=
| br_other ch d : ch <> 2 -> brings ch d []
| br_session d : session_data d = true -> brings 2 d []
| br_midi hdr sec journal l : RtpSpec.packet_ok hdr sec journal -> RtpSpec.handled sec ->
    session_data (RtpSpec.rtp_packet hdr sec journal) = false ->
    Forall msg_ok l -> RxSpec.stream l = RtpSpec.stream sec ->
    brings 2 (RtpSpec.rtp_packet hdr sec journal) l.

(** The library completes one receive request with the first datagram (or error). *)
Fixpoint first_receive (cbs : list callback) : option (option (Z * list Z)) :=
  match cbs with
  | [] => None
  | CbRecv ch raw :: _ => Some (Some (ch, raw))
  | CbRecvError :: _ => Some None
  | CbSent :: t => first_receive t
  end.

(** [asks listening evs ops]: with a receive request out or not, the events ask for
    [ops].  The first six bytes of a datagram are its sender's address. *)
Inductive asks : bool -> list wevent -> list aop -> Prop :=
| as_none b : asks b [] []
| as_frame b d evs ops : asks b evs ops -> asks b (WFrame d :: evs) (AFrame :: ops)
| as_deaf cbs x y evs ops : asks y evs ops -> asks false (WTick cbs x y :: evs) ops
| as_quiet cbs x y evs ops : first_receive cbs = None -> asks true evs ops -> asks true (WTick cbs x y :: evs) ops
| as_error cbs x y evs ops : first_receive cbs = Some None -> asks y evs ops -> asks true (WTick cbs x y :: evs) ops
| as_got cbs x y ch raw l evs ops : first_receive cbs = Some (Some (ch, raw)) -> brings ch (skipn 6 raw) l ->
    asks y evs ops -> asks true (WTick cbs x y :: evs) (told l ++ ops).

(** ** Replies *)
(** What a message has the interface send back: a pong, an instrument or nothing. *)
Definition reply_ok (m : mop) (d : list Z) : Prop :=
  d = [] \/
  exists cmd body, d = [0xF0; 0x00; 0x22; 0x77; cmd] ++ body ++ [0xF7] /\ Forall seven body /\ (length body <= 256)%nat /\
    ((is_sysex_cmd 1 m /\ cmd = 0x02) \/ (is_sysex_cmd 13 m /\ cmd = 0x0E) \/ (is_sysex_cmd 15 m /\ cmd = 0x10)).

(** Bytes given to the network to be sent. *)
Definition written (nops : list nop) : list (list Z) := flat_map (fun op => match op with NWrite d => [d] | _ => [] end) nops.
(** Polls and frames the network layer sees. *)
Definition polled (nops : list nop) : list wevent :=
  flat_map (fun op => match op with NTick cbs a b => [WTick cbs a b] | NVsync d => [WFrame d] | _ => [] end) nops.
