(** Specification for C127: what the header promises for the gas index. Numbers of type float as multiples of 2^-149 *)
From Verif Require Export Base Flt_Spec.
Open Scope Z_scope.

(** what is used of the exponential function: not negative, at most 1 up to zero, at most 2^73 up to 50 *)
Definition exponential (f : Z -> Z) : Prop := forall x, 0 <= f x /\ (x <= 0 -> f x <= 2 ^ 149) /\ (x <= 50 * 2 ^ 149 -> f x <= 2 ^ 73 * 2 ^ 149).
(** "Zero during initial blackout period and 1..500 afterwards" *)
Definition index_value (n : Z) : Prop := 1 <= n <= 500.
(** sampling intervals: a float from a second up to an hour *)
Definition usual_interval (si : Z) : Prop := is_float si /\ 2 ^ 149 <= si <= 3600 * 2 ^ 149.
(** readings the sensor can give; the others are errors *)
Definition valid_reading (v : Z) : Prop := 0 < v < 65000.
(** the smallest reading which counts, depending on the gas *)
Definition least_reading (nox : bool) : Z := if nox then 10001 else 20001.
