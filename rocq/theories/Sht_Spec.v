(** What is expected of the Sensirion sensors (C102, C103) *)
From Verif Require Import Base I2c_Model I2c_Spec.
From Verif Require CRC_Spec.

(** only device [a] is addressed, and only bytes that [ok] allows are written *)
Definition polite (a : Z) (ok : Z -> Prop) (e : ev) : Prop := match e with Addr b _ _ => b = a | Wr b _ => ok b | _ => True end.
(** byte [c] is the checksum of the bytes [b0], [b1]: remainder on division by x^8 + x^5 + x^4 + 1, most significant bit first *)
Definition fits (init b0 b1 c : Z) : Prop := CRC_Spec.bits_msb 8 c = CRC_Spec.crc_poly CRC_Spec.gen_dallas8 (CRC_Spec.bits_msb 8 init) (CRC_Spec.msg_msb [b0; b1]).
(** number of bits in which two bytes differ *)
Definition differing (x y : Z) : nat := length (filter (fun i => xorb (Z.testbit x i) (Z.testbit y i)) [0; 1; 2; 3; 4; 5; 6; 7]).

(** ** SHT2x: hundredths of a degree and of a percent, from the two bytes of a measurement; their lowest two bits are the status *)
Definition signal (b0 b1 : Z) : Z := 256 * b0 + (b1 - b1 mod 4).
(** status bit 1: set with humidity, clear with temperature *)
Definition is_humidity (b1 : Z) : Prop := b1 / 2 mod 2 = 1.
(** -46.85 + 175.72 S / 2^16, rounded down *)
Definition temperature_is (b0 b1 t : Z) : Prop := 65536 * t <= -4685 * 65536 + 17572 * signal b0 b1 < 65536 * (t + 1).
(** -6 + 125 S / 2^16, rounded down *)
Definition humidity_is (b0 b1 r : Z) : Prop := 65536 * r <= -600 * 65536 + 12500 * signal b0 b1 < 65536 * (r + 1).

(** ** SHT4x, SGP4x: words of two bytes, each followed by its checksum *)
Definition two_words (b : list Z) (x y : Z) : Prop := exists b0 b1 c d0 d1 e, b = [b0; b1; c; d0; d1; e] /\ fits 0xFF b0 b1 c /\ fits 0xFF d0 d1 e /\ x = 256 * b0 + b1 /\ y = 256 * d0 + d1.
(** the bytes of a list of words *)
Inductive protected : list Z -> list Z -> Prop :=
| no_word : protected [] []
| next_word b0 b1 c data r : fits 0xFF b0 b1 c -> protected data r -> protected (b0 :: b1 :: data) (b0 :: b1 :: c :: r).
(** the sensor is asked, does not answer yet *)
Definition not_yet (a : Z) : list ev := [Start; Addr a true Nak; Stop].
(** In the conversation [all] the bytes [cmd] were put on the bus for device [a], then, nothing else being sent in between, [n] bytes were read: the words [data] with their checksums *)
Definition asked (a : Z) (cmd : list Z) (n : nat) (all : list ev) (data : list Z) : Prop := exists pre tr0 o mid tr b, all = pre ++ tr0 ++ mid ++ tr /\ transfer a cmd 0 tr0 o (length cmd) [] /\ Forall (polite a (fun _ => False)) mid /\ transfer a [] n tr Ack 0 b /\ protected data b.
