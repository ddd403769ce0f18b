(** What a DHT sensor sends and means (C96) *)
From Verif Require Import Base.

(** ** The frame of the sensor: 40 bits, most significant first: 16 bits humidity, 16 bits temperature, 8 bits checksum *)
Definition number (bs : list bool) : Z := fold_left (fun a (b : bool) => 2 * a + (if b then 1 else 0)) bs 0.
(** the [k]-th byte *)
Definition part (n : Z) (k : nat) : Z := n / 256 ^ (4 - Z.of_nat k) mod 256.
Definition intact (n : Z) : Prop := part n 4 = (part n 0 + part n 1 + part n 2 + part n 3) mod 256.
(** in hundredths. DHT22: tenths in 16 bits, the temperature as a sign bit and 15 bits; DHT11: whole units in the first byte of each *)
Definition humidity_of (type22 : bool) (n : Z) : Z := if type22 then 10 * (n / 2 ^ 24) else 100 * (n / 2 ^ 32).
Definition temperature_of (type22 : bool) (n : Z) : Z :=
  let raw := n / 2 ^ 8 mod 2 ^ 16 in
  let magnitude := if type22 then 10 * (raw mod 2 ^ 15) else 100 * (raw mod 2 ^ 15 / 256) in
  if 2 ^ 15 <=? raw then - magnitude else magnitude.

(** ** The signal: how often the pin is read low and then high, for each bit; the bit is 1 if it is high for longer *)
Definition signal (ps : list (nat * nat)) : list bool := flat_map (fun p => repeat false (fst p) ++ repeat true (snd p)) ps.
Definition bits_of (ps : list (nat * nat)) : list bool := map (fun p => (fst p <? snd p)%nat) ps.
(** the sensor answers low and high for [a] and [b] readings, sends [ps] and pulls the line low again *)
Definition receives (line : nat -> bool) (a b : nat) (ps : list (nat * nat)) : Prop :=
  forall k, (k < length (signal ((a, b) :: ps) ++ [false]))%nat -> line k = nth k (signal ((a, b) :: ps) ++ [false]) false.
(** pulses within the limits; the counts of the code have 8 bits *)
Definition clean (max : nat) (a b : nat) (ps : list (nat * nat)) : Prop :=
  (0 < a <= max)%nat /\ (1 < b <= S max)%nat /\ Forall (fun p => (1 < fst p <= Nat.min 256 (S max) /\ 1 < snd p <= Nat.min 256 (S max))%nat) ps.
(** changes of level among the first readings of the pin *)
Fixpoint changes (line : nat -> bool) (n : nat) : nat := match n with O => O | S m => (changes line m + (if Bool.eqb (line m) (line n) then 0 else 1))%nat end.
