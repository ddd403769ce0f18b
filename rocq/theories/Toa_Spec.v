(** Decimal numbers. *)
From Verif Require Export Toa_Model.

(** The number that a text of digits stands for *)
Fixpoint value (a : Z) (s : list Z) : Z := match s with [] => a | c :: s => value (10 * a + (c - 48)) s end.
Definition is_digit (c : Z) : Prop := 48 <= c <= 57.
(** [s] are the last [d] decimal digits of [v], leading zeros kept *)
Definition shows (s : list Z) (d v : Z) : Prop := Z.of_nat (length s) = d /\ Forall is_digit s /\ value 0 s = v mod 10 ^ d.
