(** Specification for C126: the formulas of the data sheets as fractions, compared with a float k (k * 2^-149) *)
From Verif Require Export Base Flt_Spec.
Open Scope Z_scope.

(** the float [k] differs from [n] / [d] by at most 2^-[bits] *)
Definition near (bits : Z) (k n d : Z) : Prop := 2 ^ bits * Z.abs (k * d - n * 2 ^ 149) <= d * 2 ^ 149.
(** ... by at most the fraction 2^-[bits] of it *)
Definition near_rel (bits : Z) (k n d : Z) : Prop := 2 ^ bits * Z.abs (k * d - n * 2 ^ 149) <= n * 2 ^ 149.
(** the integer [z] differs from [n] / [d] * 2^-149 by less than [a] / [b] *)
Definition off_by_less (a b z n d : Z) : Prop := b * Z.abs (z * d * 2 ^ 149 - n) < a * d * 2 ^ 149.
(** the float [k] differs from [n] / [d], both in units of 2^-149, by at most 2^-[bits] *)
Definition near_to (bits : Z) (k n d : Z) : Prop := 2 ^ bits * Z.abs (k * d - n) <= d * 2 ^ 149.
