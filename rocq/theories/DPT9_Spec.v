(** Specification for C51, after the KNX specification of DPT 9: bit 15 sign, bits 14-11 exponent, bits 10-0 mantissa
    (two's complement together with the sign); value = mantissa * 2^exponent (in 1/100); 0x7FFF: invalid. *)
From Verif Require Export Base.
Definition mantissa (code : Z) : Z := code mod 2048 - 2048 * (code / 32768).
Definition exponent (code : Z) : Z := code / 2048 mod 16.
Definition dpt9_value (code : Z) : option Z := if code =? 0x7FFF then None else Some (mantissa code * 2 ^ exponent code).
Definition representable (v : Z) : Prop := exists code, is_u16 code /\ dpt9_value code = Some v.
