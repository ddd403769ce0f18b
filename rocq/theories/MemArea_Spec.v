(** A memory as addresses with bytes. *)
From Verif Require Export MemArea_Model.

(** [m] is a memory of [n] bytes at the addresses from [start] on, and [f] what they hold. The array may be longer, as the RAM's *)
Definition holds (m : area) (start n : Z) (f : Z -> Z) : Prop :=
  0 <= start /\ 1 <= n /\ start + n <= 4294967296 /\ startAddress m = start /\ endAddress m = start + n - 1 /\ sizeTotal m = n /\ n <= Z.of_nat (length (cells m)) <= 4294967296
  /\ forall a, start <= a < start + n -> is_byte (f a) /\ nth_error (cells m) (Z.to_nat (a - start)) = Some (f a).
(** The byte at an address, 0 where there is no memory *)
Definition byte_or_0 (start n : Z) (f : Z -> Z) (a : Z) : Z := if (start <=? a) && (a <? start + n) then f a else 0.
(** The word at an address, most significant byte first, 0 unless both bytes exist *)
Definition word_or_0 (start n : Z) (f : Z -> Z) (a : Z) : Z := if (start <=? a) && (a + 1 <? start + n) then f a * 256 + f (a + 1) else 0.
