(** What is expected of the choice of a cartridge. *)
From Verif Require Import Base RingBufModel SynthModel SramModel BusModel BusSpec CartModel.

(** How the two cartridges identify themselves: the upper byte of the status of an
    EverDrive X7 is 00 or 40 (hex), the upper twelve bits of that of a PRO are 55A. *)
Definition names_x7 (v : Z) : Prop := v / 256 = 0x00 \/ v / 256 = 0x40.
Definition names_pro (v : Z) : Prop := v / 16 = 0x55A.
Definition word (v : Z) : Prop := 0 <= v < 65536.

(** The accesses made by an execution, whether it ends or waits. *)
Definition accesses {A} (r : bres A) : list bus := match r with BDone _ _ _ o => o | BWaits o => o | BFault _ => [] end.
(** The address on the bus, if the access has one. *)
Definition address (e : bus) : option Z := match e with Rd _ a _ | Wr _ a _ => Some a | _ => None end.

Definition port_registers : list Z := [0xA1000B; 0xA10015; 0xA10017; 0xA10019].
Definition x7_registers : list Z := [0xA130E2; 0xA130E4].
Definition pro_registers : list Z := [0xA130D0; 0xA130D2].
Definition light_register : Z := 0xA130F0.
(** Where the presets are kept: the register that maps the memory, and the memory. *)
Definition storage_place (a : Z) : Prop := a = 0xA130F8 \/ 0x200000 <= a < 0x400000.

Definition in_port (e : bus) : Prop := forall a, address e = Some a -> In a port_registers.
(** Something is sent. *)
Definition is_write (op : cop) : Prop := exists data, op = KWrite data.

(** Only what was found is touched. *)
Definition only_found (x7 pro : bool) (e : bus) : Prop := forall a, address e = Some a ->
  In a port_registers \/ (x7 = true /\ In a x7_registers) \/ (pro = true /\ In a pro_registers) \/ ((x7 = true \/ pro = true) /\ a = light_register).
(** Only the transport in use is touched, apart from the light and the receiving
    side of the serial port. *)
Definition only_used (w : way) (e : bus) : Prop := forall a, address e = Some a ->
  a = 0xA10019 \/ a = 0xA10017 \/ a = light_register \/
  match w with ViaX7 => In a x7_registers | ViaPro => In a pro_registers | ViaSerial => In a port_registers | ViaOther => False end.

(** One round of questions while no transport is in use: the X7 (if found) has data when
    bit 2 of its status is set, the PRO when bit 15 is clear, the serial port when bytes [q]
    have come; the first that has any is taken and the rest are not asked. *)
Definition first_with_data (x7 pro other : bool) (q : list Z) (a b : Z) : option way * list bus :=
  let asked := if x7 then [Rd W16 0xA130E4 a] else [] in
  if x7 && Z.testbit a 2 then (Some ViaX7, asked)
  else
    let asked := asked ++ if pro then [Rd W16 0xA130D2 b] else [] in
    if pro && negb (Z.testbit b 15) then (Some ViaPro, asked)
    else match q with _ :: _ => (Some ViaSerial, asked) | [] => (if other then Some ViaOther else None, asked) end.
