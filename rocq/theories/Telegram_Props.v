(** C10: telegram header fields can be written and read independently. *)
From Verif Require Import Base Telegram_Model Telegram_Spec Telegram_Proofs.

Theorem C10_priority : forall t p, telegram_ok t -> 0 <= p < 4 ->
  priority (setPriority t p) = p /\ only_bits_of_byte 0 0x0C t (setPriority t p).
Proof. exact setPriority_law. Qed.
Print Assumptions C10_priority.

Theorem C10_repeated : forall t r, telegram_ok t ->
  isRepeated (setRepeated t r) = r /\ only_bits_of_byte 0 0x20 t (setRepeated t r).
Proof. exact setRepeated_law. Qed.
Print Assumptions C10_repeated.

Theorem C10_frame_type : forall t f, telegram_ok t ->
  frameType (setFrameType t f) = f /\ only_bits_of_byte 0 0x80 t (setFrameType t f).
Proof. exact setFrameType_law. Qed.
Print Assumptions C10_frame_type.

Theorem C10_sender : forall t a, telegram_ok t -> is_u16 a ->
  senderAddress (setSenderAddress t a) = a /\ only_two_bytes 1 t (setSenderAddress t a).
Proof. exact setSenderAddress_law. Qed.
Print Assumptions C10_sender.

Theorem C10_destination : forall t a, telegram_ok t -> is_u16 a ->
  destinationAddress (setDestinationAddress t a) = a /\ only_two_bytes 3 t (setDestinationAddress t a).
Proof. exact setDestinationAddress_law. Qed.
Print Assumptions C10_destination.

Theorem C10_init : forall t p r f, telegram_ok t -> 0 <= p < 4 ->
  let t' := initLpdu t p r f in
  priority t' = p /\ isRepeated t' = r /\ frameType t' = f /\ only_bits_of_byte 0 0xFF t t'.
Proof. exact initLpdu_law. Qed.
Print Assumptions C10_init.

(** The sequence number (bits 2..5 of byte 6; bit 6 is the 'numbered' flag that the setter also sets).
    Missing part: number 15 in a telegram whose byte 6 has bits 7, 1 and 0 set (that is T_NACK),
    see [C10_sequence_number_refuted]. *)
Theorem C10_sequence_number_partial : forall t n, telegram_ok t -> 0 <= n < 16 ->
  ~ (n = 15 /\ Z.land (rd t 6) 0x83 = 0x83) ->
  sequenceNumber (setSequenceNumber t n) = n /\ only_bits_of_byte 6 0x7C t (setSequenceNumber t n).
Proof. exact setSequenceNumber_law. Qed.
Print Assumptions C10_sequence_number_partial.

(** A T_NACK (0xC3) that carries sequence number 15 is the byte 0xFF, which the reader
    (knx_tpdu.h:69) takes for "no sequence number" and reports as 255. *)
Theorem C10_sequence_number_refuted : exists t n, telegram_ok t /\ 0 <= n < 16 /\ rd t 6 = T_NACK_PDU /\
  sequenceNumber (setSequenceNumber t n) <> n.
Proof.
  exists [0xB0; 0x11; 0x01; 0x11; 0x02; 0x60; 0xC3; 0], 15.
  split; [|split; [lia|split; [reflexivity|vm_compute; discriminate]]].
  split; [simpl; lia|]. repeat constructor; vm_compute; discriminate.
Qed.
Print Assumptions C10_sequence_number_refuted.

Definition C10_example : list Z := [0xB8; 0x11; 0x01; 0x11; 0x02; 0x63; 0x42; 0x05; 0x01; 0x16].
Example C10_example_ok : telegram_ok C10_example.
Proof. split; [simpl; lia|]. repeat constructor; vm_compute; discriminate. Qed.
Example C10_example_values :
  priority (setPriority C10_example 1) = 1 /\ senderAddress C10_example = 0x1101 /\
  senderAddress (setDestinationAddress C10_example 0xFFFF) = 0x1101 /\
  sequenceNumber (setSequenceNumber C10_example 9) = 9.
Proof. vm_compute. auto. Qed.
