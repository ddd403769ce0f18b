(** Cyclic redundancy checks by definition: long division of polynomials over GF(2).
    A polynomial is the list of its coefficients, highest degree first. *)
From Verif Require Import Base.

Definition zeros (n : nat) : list bool := repeat false n.
(** add [g] to the leading coefficients of [m] *)
Fixpoint add_front (m g : list bool) : list bool :=
  match m, g with
  | x :: m', y :: g' => xorb x y :: add_front m' g'
  | _, _ => m
  end.
(** [n] steps of long division by  x^w + g  ([g]: the w lower coefficients): if the leading coefficient is 1, subtract
    the divisor; drop the leading coefficient.  Of a polynomial with n + w coefficients the remainder (w coefficients)
    is left. *)
Fixpoint long_division (g : list bool) (n : nat) (m : list bool) : list bool :=
  match n, m with
  | S n', b :: m' => long_division g n' (if b then add_front m' g else m')
  | _, _ => m
  end.
(** remainder of  message * x^w  (with the initial value added to the leading coefficients) *)
Definition crc_poly (g init msg : list bool) : list bool :=
  long_division g (length msg) (add_front (msg ++ zeros (length g)) init).

(** bits of a number, least / most significant first *)
Definition bits_lsb (w : nat) (z : Z) : list bool := map (fun i => Z.testbit z (Z.of_nat i)) (seq 0 w).
Definition bits_msb (w : nat) (z : Z) : list bool := rev (bits_lsb w z).
(** a message of bytes in the order of transmission: least (most) significant bit of each byte first *)
Definition msg_lsb (m : list Z) : list bool := flat_map (bits_lsb 8) m.
Definition msg_msb (m : list Z) : list bool := flat_map (bits_msb 8) m.

(** divisors, lower coefficients written as the usual hexadecimal constant *)
Definition gen_crc32 := bits_msb 32 0x04C11DB7.    (* x^32 + x^26 + x^23 + x^22 + x^16 + x^12 + x^11 + x^10 + x^8 + x^7 + x^5 + x^4 + x^2 + x + 1 *)
Definition gen_dallas8 := bits_msb 8 0x31.         (* x^8 + x^5 + x^4 + 1 *)
Definition gen_dallas16 := bits_msb 16 0x8005.     (* x^16 + x^15 + x^2 + 1 *)
Definition gen_ccitt := bits_msb 16 0x1021.        (* x^16 + x^12 + x^5 + 1 *)

(** two messages that differ only within a window of at most [w] consecutive bits *)
Definition burst (w : nat) (a b : list bool) : Prop :=
  exists p x y q, a = p ++ x ++ q /\ b = p ++ y ++ q /\ length x = length y /\ (length x <= w)%nat /\ x <> y.
