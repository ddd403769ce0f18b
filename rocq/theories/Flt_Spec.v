(** Specification for C125: floats and what a printed text says *)
From Verif Require Export Base Text_Spec.
Open Scope Z_scope.

(** the finite floats (binary32), as multiples of 2^-149: 24 bits and an exponent *)
Definition is_float (k : Z) : Prop := exists m e, 0 <= e <= 253 /\ Z.abs m < 2 ^ 24 /\ k = m * 2 ^ e.
(** the text shows [shown] / 10^[places]: digits, a point, exactly [places] digits; no superfluous zero in front *)
Definition shows (text : list Z) (places : nat) (shown : Z) : Prop :=
  exists i d whole frac, text = i ++ 46 :: d /\ denotes 10 i = Some whole /\ padded 1 i /\ denotes 10 d = Some frac /\ length d = places /\ shown = whole * 10 ^ Z.of_nat places + frac.
(** [shown] / 10^[places] and k * 2^-149 differ by less than [n] / [m] of the last place *)
Definition within (n m : Z) (places : nat) (shown k : Z) : Prop := m * Z.abs (shown * 2 ^ 149 - k * 10 ^ Z.of_nat places) < n * 2 ^ 149.
