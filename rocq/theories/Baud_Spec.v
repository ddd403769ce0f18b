(** Specification for C128: rates of the UART and of the I2C unit by the user manual UM10398 *)
From Verif Require Export Base.
Open Scope Z_scope.

(** UM10398, UART fractional divider register: baud rate = PCLK / (16 * (256 * DLM + DLL) * (1 + DIVADDVAL / MULVAL)), as numerator and denominator *)
Definition uart_rate (pclk dlm dll fdr : Z) : Z * Z :=
  let add := fdr mod 16 in let mul := fdr / 16 mod 16 in
  (pclk * mul, 16 * (256 * dlm + dll) * (mul + add)).
(** the rate n / d differs from [rate] by at most [k] / 10000 of it *)
Definition rate_close (k rate : Z) (q : Z * Z) : Prop := 0 < snd q /\ 10000 * Z.abs (fst q - rate * snd q) <= k * rate * snd q.
(** not below [rate], and by less than 1 / [m] of it above *)
Definition rate_above (m rate : Z) (q : Z * Z) : Prop := 0 < snd q /\ rate * snd q <= fst q /\ m * (fst q - rate * snd q) < rate * snd q.
Definition rate_exact (rate : Z) (q : Z * Z) : Prop := 0 < snd q /\ rate * snd q = fst q.
(** the format on the line by the line control register: data bits, stop bits, parity; None: not a plain format, or the divisor latch still open *)
Inductive parity := no_parity | odd | even.
Definition line_format (lcr : Z) : option (Z * Z * parity) :=
  let data := lcr mod 4 + 5 in let stop := lcr / 4 mod 2 + 1 in
  if 32 <=? lcr then None
  else match lcr / 8 with 0 => Some (data, stop, no_parity) | 1 => Some (data, stop, odd) | 3 => Some (data, stop, even) | _ => None end.
