(** Telegram header accessors.
    Models sblib/inc/sblib/eib/knx_lpdu.h, knx_npdu.h, knx_tpdu.h, sblib/inc/sblib/bits.h,
    sblib/src/eib/apci.cpp.  A telegram buffer is a list of bytes ([list Z]). *)
From Verif Require Export Base.

(** bits.h:25 lowByte *)
Definition lowByte (v : Z) : Z := Z.land v 255.
(** utils.h:17 HIGH_BYTE (uint8_t)(x >> 8) *)
Definition HIGH_BYTE (v : Z) : Z := u8 (Z.shiftr v 8).
(** bits.h:50-53 makeWord *)
Definition makeWord (high low : Z) : Z := u16 (Z.lor (Z.shiftl high 8) low).

(** knx_lpdu.h:48-54 *)
Definition PRIORITY_SYSTEM := 0.
Definition PRIORITY_HIGH := 1.
Definition PRIORITY_ALARM := 2.
Definition PRIORITY_LOW := 3.
(** knx_lpdu.h:59-63 *)
Inductive frame_type := FRAME_STANDARD | FRAME_EXTENDED.

(** knx_lpdu.h:87-90 controlByte *)
Definition controlByte (t : list Z) : Z := rd t 0.
(** knx_lpdu.h:92-96 isRepeated *)
Definition isRepeated (t : list Z) : bool := Z.land (controlByte t) 0x20 =? 0.
(** knx_lpdu.h:98-109 setRepeated; (uint8_t)~MASK_REPEATED = 0xDF *)
Definition setRepeated (t : list Z) (rep : bool) : list Z :=
  wr t 0 (if rep then Z.land (controlByte t) 0xDF else Z.lor (controlByte t) 0x20).
(** knx_lpdu.h:111-115 priority *)
Definition priority (t : list Z) : Z := Z.land (Z.shiftr (controlByte t) 2) 3.
(** knx_lpdu.h:117-120 setPriority *)
Definition setPriority (t : list Z) (p : Z) : list Z :=
  wr t 0 (Z.lor (u8 (Z.shiftl p 2)) (Z.land (controlByte t) 0xF3)).
(** knx_lpdu.h:122-125 senderAddress *)
Definition senderAddress (t : list Z) : Z := u16 (Z.lor (Z.shiftl (rd t 1) 8) (rd t 2)).
(** knx_lpdu.h:127-131 setSenderAddress *)
Definition setSenderAddress (t : list Z) (a : Z) : list Z := wr (wr t 1 (HIGH_BYTE a)) 2 (lowByte a).
(** knx_lpdu.h:134-137 destinationAddress *)
Definition destinationAddress (t : list Z) : Z := makeWord (rd t 3) (rd t 4).
(** knx_lpdu.h:139-143 setDestinationAddress *)
Definition setDestinationAddress (t : list Z) (a : Z) : list Z := wr (wr t 3 (HIGH_BYTE a)) 4 (lowByte a).
(** knx_lpdu.h:145-155 frameType *)
Definition frameType (t : list Z) : frame_type :=
  if Z.land (controlByte t) 0x80 =? 0 then FRAME_EXTENDED else FRAME_STANDARD.
(** knx_lpdu.h:157-168 setFrameType *)
Definition setFrameType (t : list Z) (f : frame_type) : list Z :=
  wr t 0 (match f with
          | FRAME_EXTENDED => Z.land (controlByte t) 0x7F
          | FRAME_STANDARD => Z.lor (controlByte t) 0x80
          end).
(** knx_lpdu.h:79-85 initLpdu *)
Definition initLpdu (t : list Z) (p : Z) (rep : bool) (f : frame_type) : list Z :=
  setFrameType (setPriority (setRepeated (wr t 0 0xB0) rep) p) f.

(** knx_npdu.h:49 telegramSize *)
Definition telegramSize (t : list Z) : nat := Z.to_nat (7 + Z.land (rd t 5) 15).

(** knx_tpdu.h:33-39 *)
Definition T_CONNECT_PDU := 0x80.
Definition T_DISCONNECT_PDU := 0x81.
Definition T_ACK_PDU := 0xc2.
Definition T_NACK_PDU := 0xc3.
(** knx_tpdu.h:57 *)
Definition T_SEQUENCED_COMMAND := 0x40.

(** knx_tpdu.h:66-77 sequenceNumber (return type byte: -1 becomes 255) *)
Definition sequenceNumber (t : list Z) : Z :=
  if rd t 6 =? 0xFF then 255 else Z.shiftr (Z.land (rd t 6) 0x3c) 2.
(** knx_tpdu.h:79-84 setSequenceNumber *)
Definition setSequenceNumber (t : list Z) (n : Z) : list Z :=
  let b1 := Z.land (rd t 6) 0xC3 in
  let b2 := Z.lor b1 (u8 (Z.shiftl n 2)) in
  wr t 6 (Z.lor b2 T_SEQUENCED_COMMAND).

(** apci.h APCI codes used by apciCommand *)
Definition APCI_GROUP_MASK := 0x3c0.
Definition APCI_GROUP_VALUE_READ_PDU := 0x000.
Definition APCI_GROUP_VALUE_RESPONSE_PDU := 0x040.
Definition APCI_GROUP_VALUE_WRITE_PDU := 0x080.
Definition APCI_INDIVIDUAL_ADDRESS_WRITE_PDU := 0x0C0.
Definition APCI_INDIVIDUAL_ADDRESS_READ_PDU := 0x100.
Definition APCI_INDIVIDUAL_ADDRESS_RESPONSE_PDU := 0x140.
Definition APCI_ADC_READ_PDU := 0x180.
Definition APCI_MEMORY_READ_PDU := 0x200.
Definition APCI_MEMORY_RESPONSE_PDU := 0x240.
Definition APCI_MEMORY_WRITE_PDU := 0x280.
Definition APCI_DEVICEDESCRIPTOR_READ_PDU := 0x300.

(** apci.cpp:23-38 apciCommand *)
Definition apciCommand (t : list Z) : Z :=
  let apci := u16 (Z.lor (Z.shiftl (Z.land (rd t 6) 3) 8) (rd t 7)) in
  let short := Z.land apci APCI_GROUP_MASK in
  if (short =? APCI_ADC_READ_PDU) || (short =? APCI_MEMORY_READ_PDU) ||
     (short =? APCI_MEMORY_WRITE_PDU) || (short =? APCI_DEVICEDESCRIPTOR_READ_PDU)
  then short else apci.
(** apci.cpp:40-45 setApciCommand *)
Definition setApciCommand (t : list Z) (cmd add : Z) : list Z :=
  let t1 := wr (wr t 6 (HIGH_BYTE cmd)) 7 (lowByte cmd) in
  wr t1 7 (Z.lor (rd t1 7) add).

(** apci.cpp:54-67 mainGroup/middleGroup/lowGroup; highByte of a uint16_t is (v >> 8) & 255 *)
Definition highByte16 (v : Z) : Z := Z.land (Z.shiftr v 8) 255.
Definition mainGroup (a : Z) : Z := Z.shiftr (highByte16 a) 3.
Definition middleGroup (a : Z) : Z := Z.land (highByte16 a) 7.
Definition lowGroup (a : Z) : Z := lowByte a.
