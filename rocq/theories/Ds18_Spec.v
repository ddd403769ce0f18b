(** What is expected of the temperature sensors on a one-wire bus (C97) *)
From Verif Require Import Base Ds18_Model.
From Verif Require CRC_Spec.

(** ** Addresses: the last of the eight bytes is the checksum of the others, the first the family *)
Definition valid_rom (r : list Z) : Prop := CRC_Spec.bits_lsb 8 (rd r 7) = CRC_Spec.crc_poly CRC_Spec.gen_dallas8 (CRC_Spec.zeros 8) (CRC_Spec.msg_lsb (firstn 7 r)).
Definition sensor (r : list Z) : Prop := valid_rom r /\ In (rd r 0) [0x10; 0x22; 0x28].
(** an entry of the list of devices for a sensor *)
Definition listed (r : list Z) (d : sDev) : Prop := addr d = r /\ type d = rd r 0 /\ (res_type d = 1 <-> rd r 0 = 0x10) /\ (res_type d = 0 \/ res_type d = 1) /\ conversionStarted d = false.
(** the meaning of the returned code for one device *)
Definition code (r : list Z) (c : Z) : Prop := (sensor r -> c = 0) /\ (valid_rom r -> ~ sensor r -> c = 1) /\ (~ valid_rom r -> c = 2).

(** ** Temperatures in sixteenths of a degree, from the nine bytes of the scratchpad *)
Definition signed (z : Z) : Z := if z <? 32768 then z else z - 65536.
Definition reading (b : list Z) : Z := signed (rd b 1 * 256 + rd b 0).
(** DS18B20, DS1822: sixteenths; with 9, 10 or 11 bits of resolution (bits 5 and 6 of the configuration) the lowest 3, 2 or 1 bits are undefined and left out *)
Definition step_of (config : Z) : Z := 2 ^ (3 - config / 32 mod 4).
Definition temperature_b (b : list Z) : Z := reading b / step_of (rd b 4) * step_of (rd b 4).
(** DS18S20: half degrees; if the counter per degree is 16: whole degrees - 1/4 + (16 - remaining count) / 16 *)
Definition temperature_s (b : list Z) : Z := if rd b 7 =? 16 then 16 * (reading b / 2) - 4 + (16 - rd b 6) else 8 * reading b.
(** what the sensors can measure *)
Definition measurable (v : Z) : Prop := -55 * 16 <= v <= 125 * 16.

(** ** Histories: conversions started and results read *)
Inductive op := Start (i now : Z) (present : bool) | Read (i now : Z) (present : bool) (answer : list Z -> list Z).
Definition perform (st : ds) (o : op) : result := match o with Start i n p => startConversion st i n p | Read i n p a => readResult st i n p a end.
Definition time (o : op) : Z := match o with Start _ n _ => n | Read _ n _ _ => n end.
(** time of the conversion of device [i] that is under way *)
Definition under_way (i : Z) (w : option Z) (e : op * bool) : option Z :=
  match e with
  | (Start j n _, true) => if j =? i then Some n else w
  | (Read j _ _ _, true) => if j =? i then None else w
  | _ => w
  end.
Inductive history (s0 : ds) : ds -> list (op * bool) -> Prop :=
| at_first : history s0 s0 []
| and_then st tr o b st' l : history s0 st tr -> perform st o = Some (b, st', l) -> history s0 st' (tr ++ [(o, b)]).
