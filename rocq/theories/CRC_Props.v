(** C41, C53, C57: the checksum routines compute polynomial remainders and detect error bursts. *)
From Verif Require Import Base CRC_Model CRC_Spec CRC_Proofs.

(** The bootloader's crc32 is the complemented remainder of the message (with the start value added in front) modulo
    the CRC-32 polynomial. *)
Theorem C41_crc32_is_remainder : forall start m, is_u32 start -> Forall is_byte m ->
  bits_lsb 32 (crc32 start m) = map negb (crc_poly gen_crc32 (bits_lsb 32 start) (msg_lsb m)) /\ is_u32 (crc32 start m).
Proof. exact crc32_remainder. Qed.
Print Assumptions C41_crc32_is_remainder.

(** Every corruption confined to 32 consecutive bits is detected, wherever it is and however long the image. *)
Theorem C41_crc32_detects_bursts : forall start a b, is_u32 start -> Forall is_byte a -> Forall is_byte b ->
  burst 32 (msg_lsb a) (msg_lsb b) -> crc32 start a <> crc32 start b.
Proof. exact crc32_burst. Qed.
Print Assumptions C41_crc32_detects_bursts.

(** The checksum of an image read in pieces. *)
Theorem C41_crc32_incremental : forall start a b, is_u32 start -> Forall is_byte a -> Forall is_byte b ->
  crc32 start (a ++ b) = crc32 (u32 (Z.lnot (crc32 start a))) b.
Proof. exact crc32_app. Qed.
Print Assumptions C41_crc32_incremental.

Definition check_message : list Z := [0x31; 0x32; 0x33; 0x34; 0x35; 0x36; 0x37; 0x38; 0x39].
Example check_message_bytes : Forall is_byte check_message.
Proof. repeat constructor; vm_compute; discriminate. Qed.
Example C41_check_value : crc32 0xFFFFFFFF check_message = 0xCBF43926.
Proof. vm_compute. reflexivity. Qed.
(** a hypothesis of the burst theorem is met by a real corruption (two bytes of an image changed) *)
Example C41_burst_example : burst 32 (msg_lsb [1; 2; 3; 4; 5; 6; 7]) (msg_lsb [1; 2; 0x83; 0; 5; 6; 7]).
Proof.
  exists (msg_lsb [1; 2]), (msg_lsb [3; 4]), (msg_lsb [0x83; 0]), (msg_lsb [5; 6; 7]).
  repeat split; try (vm_compute; reflexivity); try (vm_compute; lia); vm_compute; discriminate.
Qed.

(** One-wire CRC-8 *)
Theorem C53_crc8_is_remainder : forall m, Forall is_byte m ->
  bits_lsb 8 (OneWireCRC8 m) = crc_poly gen_dallas8 (zeros 8) (msg_lsb m) /\ is_byte (OneWireCRC8 m).
Proof. exact crc8_remainder. Qed.
Print Assumptions C53_crc8_is_remainder.

(** A ROM code or scratchpad followed by its checksum byte has checksum 0, and no other last byte has. *)
Theorem C53_crc8_check : forall m b, Forall is_byte m -> is_byte b -> (OneWireCRC8 (m ++ [b]) = 0 <-> b = OneWireCRC8 m).
Proof. exact crc8_check. Qed.
Print Assumptions C53_crc8_check.

Theorem C53_crc8_detects_bursts : forall a b, Forall is_byte a -> Forall is_byte b ->
  burst 8 (msg_lsb a) (msg_lsb b) -> OneWireCRC8 a <> OneWireCRC8 b.
Proof. exact crc8_burst. Qed.
Print Assumptions C53_crc8_detects_bursts.

(** One-wire CRC-16 *)
Theorem C53_crc16_is_remainder : forall start m, is_u16 start -> Forall is_byte m ->
  bits_lsb 16 (OneWireCRC16 m start) = crc_poly gen_dallas16 (bits_lsb 16 start) (msg_lsb m) /\ is_u16 (OneWireCRC16 m start).
Proof. exact crc16_remainder. Qed.
Print Assumptions C53_crc16_is_remainder.

Theorem C53_crc16_detects_bursts : forall start a b, is_u16 start -> Forall is_byte a -> Forall is_byte b ->
  burst 16 (msg_lsb a) (msg_lsb b) -> OneWireCRC16 a start <> OneWireCRC16 b start.
Proof. exact crc16_burst. Qed.
Print Assumptions C53_crc16_detects_bursts.

(** OneWireCheckCRC16 accepts exactly the two bytes a slave transmits: the complemented remainder, low byte first. *)
Theorem C53_check_crc16 : forall m i0 i1 crc, is_u16 crc -> Forall is_byte m -> is_byte i0 -> is_byte i1 ->
  OneWireCheckCRC16 m [i0; i1] crc = true <-> msg_lsb [i0; i1] = map negb (crc_poly gen_dallas16 (bits_lsb 16 crc) (msg_lsb m)).
Proof. exact check16. Qed.
Print Assumptions C53_check_crc16.

(** published check values (CRC-8/MAXIM, CRC-16/ARC) and a slave's answer *)
Example C53_check_values : OneWireCRC8 check_message = 0xA1 /\ OneWireCRC16 check_message 0 = 0xBB3D.
Proof. vm_compute. auto. Qed.
Example C53_accepts : OneWireCheckCRC16 check_message [0xC2; 0x44] 0 = true /\ OneWireCheckCRC16 check_message [0x3D; 0xBB] 0 = false.
Proof. vm_compute. auto. Qed.

(** The table driven CRC-8 of the DS2482 driver agrees with the one-wire CRC-8. *)
Theorem C57_ds2482_table : forall m, Forall is_byte m -> ds2482_crc8 m = OneWireCRC8 m.
Proof. exact ds2482_ok. Qed.
Print Assumptions C57_ds2482_table.

(** The sensor drivers (SHT2x: start 0, SHT4x and SGP4x: start 0xFF). *)
Theorem C57_sensirion_is_remainder : forall start m, is_byte start -> Forall is_byte m ->
  bits_msb 8 (sensirion_crc8 start m) = crc_poly gen_dallas8 (bits_msb 8 start) (msg_msb m) /\ is_byte (sensirion_crc8 start m).
Proof. exact sensirion_remainder. Qed.
Print Assumptions C57_sensirion_is_remainder.

Theorem C57_sensirion_detects_bursts : forall start a b, is_byte start -> Forall is_byte a -> Forall is_byte b ->
  burst 8 (msg_msb a) (msg_msb b) -> sensirion_crc8 start a <> sensirion_crc8 start b.
Proof. exact sensirion_burst. Qed.
Print Assumptions C57_sensirion_detects_bursts.

(** The CRC of a loaded table in a System B device. *)
Theorem C57_systemb_is_remainder : forall m, Forall is_byte m ->
  bits_msb 16 (systemb_crc16 m) = crc_poly gen_ccitt (bits_msb 16 0x1D0F) (msg_msb m) /\ is_u16 (systemb_crc16 m).
Proof. exact systemb_remainder. Qed.
Print Assumptions C57_systemb_is_remainder.

Theorem C57_systemb_detects_bursts : forall a b, Forall is_byte a -> Forall is_byte b ->
  burst 16 (msg_msb a) (msg_msb b) -> systemb_crc16 a <> systemb_crc16 b.
Proof. exact systemb_burst. Qed.
Print Assumptions C57_systemb_detects_bursts.

(** published check values: CRC-8/NRSC-5-like Sensirion example 0xBEEF -> 0x92, CRC-16/SPI-FUJITSU *)
Example C57_check_values : sensirion_crc8 0xFF [0xBE; 0xEF] = 0x92 /\ systemb_crc16 check_message = 0xE5CC /\
  ds2482_crc8 check_message = 0xA1.
Proof. vm_compute. auto. Qed.
Example C57_burst_example : burst 8 (msg_msb [0xBE; 0xEF]) (msg_msb [0xB0; 0x0F]).
Proof.
  exists (firstn 4 (msg_msb [0xBE])), (firstn 8 (skipn 4 (msg_msb [0xBE; 0xEF]))), (firstn 8 (skipn 4 (msg_msb [0xB0; 0x0F]))), (skipn 12 (msg_msb [0xBE; 0xEF])).
  repeat split; try (vm_compute; reflexivity); try (vm_compute; lia); vm_compute; discriminate.
Qed.
