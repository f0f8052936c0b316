(** When the network can be used, and what the user is told. *)
From Verif Require Import Base IpUtilSpec NetModel NetStartModel.

(** Everything the transport needs. *)
Definition usable (a : answers) : Prop :=
  an_uart a = true /\ an_init a = 0 /\ an_detect a = 0 /\ an_ip a = 0 /\ an_udp a 1 = 0 /\ an_udp a 2 = 0.
(** The access point was joined. *)
Definition joined (a : answers) : Prop := an_assoc a = 0 /\ an_wait a = 0.

Definition warning (e : sev) : Prop := match e with LInitError _ | LNotFound | LNoIp | LNoUdp _ => True | _ => False end.
Definition ports (o : list sev) : list (Z * list Z) := flat_map (fun e => match e with SUdp c p => [(c, p)] | _ => [] end) o.
Definition waits (o : list sev) : list Z := flat_map (fun e => match e with SAssocWait f => [f] | _ => [] end) o.

(** Lexical order of byte strings, from the mathematics: the first difference decides. *)
Definition lex_less (x y : list Z) : Prop := exists p a b x' y', x = p ++ a :: x' /\ y = p ++ b :: y' /\ a < b.
