(** What is visible of a device from outside: the telegrams it takes, orders they carry, bits of the status byte *)
From Verif Require Import Base Device_Model.
From Verif Require Eeprom_Spec.

(** ** Telegrams *)
Definition two (t : list Z) (i : nat) : Z := 256 * rd t i + rd t (S i).
Definition destination (t : list Z) : Z := two t 3.
(** the ten bits of the application layer service *)
Definition service (t : list Z) : Z := 256 * (rd t 6 mod 4) + rd t 7.
(** the device takes the telegram from the bus in operation [o] *)
Definition takes (x : device) (o : dop) (r : received) : Prop :=
  running x = true /\ exists i, o = Loop i /\ rx i = Some r /\ sending1 i = false /\ Z.testbit (status (mem x)) 2 = true.
Definition is_power_up (o : dop) : bool := match o with PowerUp _ _ => true | _ => false end.

(** ** Devices *)
(** BCU1: 256 bytes of EEPROM; BCU2: 1024 *)
Record conf_ok (c : conf) : Prop := {
  k_size : Z.of_nat (Eeprom_Model.esize (ecf c)) = match kind c with Bcu1 => 256 | Bcu2 => 1024 end;
  k_flash : Eeprom_Model.fsize (ecf c) = Eeprom_Model.esize (ecf c);
  k_ram : ramStart (lay c) = 0;
  k_serial : length (serialNo c) = 6%nat /\ Forall is_byte (serialNo c) }.
(** the application and the communication objects keep the sizes of the memories and store bytes *)
Definition effect_ok (c : conf) (g : effect) : Prop :=
  length (efEe g) = Eeprom_Model.esize (ecf c) /\ Forall is_byte (efEe g) /\ length (efRam g) = (Z.to_nat (ramSize (lay c)) + 3)%nat /\ Forall is_byte (efRam g).
(** everything that comes from outside consists of bytes *)
Definition op_ok (c : conf) (o : dop) : Prop :=
  match o with
  | Loop i => forall r, rx i = Some r -> Forall is_byte (rxTel r) /\ effect_ok c (rxEffect r)
  | AppMem g => effect_ok c g
  | _ => True
  end.
(** a device as it can be found: switched on with a flash sector in order (see Eeprom_Spec; an empty one, for instance), then used *)
Inductive reachable_device (c : conf) : device -> Prop :=
| switched_on_with sec m last junk x : Eeprom_Spec.sector_ok (ecf c) sec -> powerUp c sec m last junk = Some x -> reachable_device c x
| after x o x' l : reachable_device c x -> op_ok c o -> dstep c x o = Some (x', l) -> reachable_device c x'.

(** ** The own address (C32) *)
Definition own_address (x : device) : Z := own (tl x).
(** the telegram orders the device to take the address [a] *)
Inductive address_order (k : bcuKind) (d : dev) (t : list Z) (a : Z) : Prop :=
| by_programming : destination t = 0 -> Z.testbit (status d) 0 = true -> service t = 0x0C0 -> a = two t 8 -> address_order k d t a
| by_serial : k = Bcu2 -> destination t = 0 -> service t = 0x3DE -> (forall i, (i < 6)%nat -> rd t (8 + i) = rd (eeData d) (Z.to_nat 0x38A + i)) -> a = two t 14 ->
    address_order k d t a.
(** the address table is not being loaded *)
Definition not_loading (k : bcuKind) (d : dev) : Prop := k = Bcu1 \/ rd (eeData d) (Z.to_nat 0x371) <> 2.

(** ** The status byte (C33) *)
Definition parity (v : Z) : bool := fold_right xorb false (map (Z.testbit v) [0; 1; 2; 3; 4; 5; 6; 7]).
(** bits 0 and 7 inverted *)
Definition switched (v v' : Z) : Prop := forall k, Z.testbit v' k = if (k =? 0) || (k =? 7) then negb (Z.testbit v k) else Z.testbit v k.
(** the telegram is a memory write to this device that stores [v] at address 0x60 *)
Definition stores_status (a : Z) (t : list Z) (v : Z) : Prop :=
  destination t = a /\ a <> 0 /\ Z.testbit (rd t 5) 7 = false /\ 0x280 <= service t < 0x2C0 /\ two t 8 <= 0x60 < two t 8 + rd t 7 mod 16 /\ v = rd t (10 + Z.to_nat (0x60 - two t 8)).
(** every such telegram in the history, whatever its destination, keeps the parity rule *)
Definition parity_kept (o : dop) : Prop :=
  match o with Loop i => forall r a v, rx i = Some r -> stores_status a (rxTel r) v -> parity v = false | _ => True end.

(** ** Power-up (C32, C76) *)
(** EEPROM bytes that begin() gives fixed values: manufacturer, device type, version, run error, port A direction; on BCU2 also the application type,
    the serial number, two bytes of the order info, and the address of the communication object table if it is static *)
Definition begin_fixes (c : conf) (i : nat) : Prop :=
  In (Z.of_nat i) [0x03; 0x04; 0x05; 0x06; 0x07; 0x0c; 0x0d] \/
  (kind c = Bcu2 /\ (In (Z.of_nat i) [0x15; 0x3A2; 0x3A3] \/ 0x38A <= Z.of_nat i < 0x390 \/ (static c <> 0 /\ In (Z.of_nat i) [0x37C; 0x37D]))).
(** what a power-up reads from the flash sector *)
Definition saved (c : conf) (sec : list Z) (d : list Z) : Prop := Eeprom_Spec.content (ecf c) sec d.
