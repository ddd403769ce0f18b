(** Specification vocabulary for header field laws (C10): which bits of a telegram may change. *)
From Verif Require Import Base.

(** A telegram buffer holding at least the 8 bytes of a standard frame header. *)
Definition telegram_ok (t : list Z) : Prop := (8 <= length t)%nat /\ Forall is_byte t.

(** [t'] is a telegram of the same length that agrees with [t] in every byte except byte [i],
    and in byte [i] in every bit not contained in [mask]. *)
Definition only_bits_of_byte (i : nat) (mask : Z) (t t' : list Z) : Prop :=
  telegram_ok t' /\ length t' = length t /\
  (forall j, j <> i -> rd t' j = rd t j) /\
  (forall k, Z.testbit mask k = false -> Z.testbit (rd t' i) k = Z.testbit (rd t i) k).

(** [t'] agrees with [t] in every byte except bytes [i] and [i+1]. *)
Definition only_two_bytes (i : nat) (t t' : list Z) : Prop :=
  telegram_ok t' /\ length t' = length t /\
  (forall j, j <> i -> j <> S i -> rd t' j = rd t j).
