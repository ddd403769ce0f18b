(** Specification for C124: what the updating program sends and reads *)
From Verif Require Export Base Boot_Model.
Open Scope Z_scope.

(** a request: the service 0x2F8 and the message, in a standard frame whose length field counts the bytes behind the transport byte; the checksum and whatever the buffer holds follow *)
Definition request (t : list Z) (message : list Z) : Prop :=
  rd t 6 mod 4 = 2 /\ rd t 7 = 0xF8 /\ exists rest, skipn 8 t = message ++ rest /\ (1 <= length rest)%nat.
Definition telegram_length (message : list Z) : Z := 8 + Z.of_nat (length message) + 1.
(** reading an answer: service 0x2FE, the length field, the command, the data *)
Definition service (t : list Z) : Z := rd t 6 mod 4 * 256 + rd t 7.
Definition read_answer (t : list Z) : option (Z * list Z) :=
  if service t =? 0x2FE then Some (rd t 8, firstn (Z.to_nat (rd t 5 mod 16) - 2) (skipn 9 t)) else None.
(** the bytes in front of the length field, where addresses and priority are, are left alone *)
Definition same_head (t t' : list Z) : Prop := firstn 5 t' = firstn 5 t /\ length t' = length t.
(** the device is sound: memory and identification hold bytes, the counters are given by four bytes *)
Definition bytes_only (L : layout) (e : env) (s : upd) : Prop :=
  (forall a, is_byte (fl s a)) /\ Forall is_byte (chip_uid L) /\ (12 <= length (chip_uid L))%nat /\ Forall is_byte (e_stat e) /\ length (e_stat e) = 4%nat.
(** a value sent low byte first *)
Definition value (l : list Z) : Z := fold_right (fun b v => b + 256 * v) 0 l.
